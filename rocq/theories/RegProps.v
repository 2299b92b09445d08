(** C46: the registered torrents. *)
From Verif Require Import Base BaseLemmas HexModel HexSpec HexProofs RegModel.

Definition hashes (s : reg) : list (list Z) := map fst (rT s).

Lemma getTorrent_some h l i : getTorrent h l = Some i -> (i < length l)%nat /\ fst (nth i l ([], [])) = h.
Proof.
  revert i. induction l as [|t l IH]; intros i E; [discriminate|]. cbn [getTorrent] in E. destruct (list_eqb (fst t) h) eqn:X.
  - injection E as <-. apply list_eqb_spec in X. cbn. split; [lia|exact X].
  - destruct (getTorrent h l) as [j|]; [|discriminate]. injection E as <-. destruct (IH j eq_refl). cbn [length nth]. split; [lia|assumption].
Qed.

Lemma getTorrent_none h l : getTorrent h l = None <-> ~ In h (map fst l).
Proof.
  induction l as [|t l IH]; cbn [getTorrent map In]; [tauto|]. destruct (list_eqb (fst t) h) eqn:X.
  - apply list_eqb_spec in X. split; [discriminate|]. intros H. exfalso. auto.
  - destruct (getTorrent h l) as [j|].
    + split; [discriminate|]. intros H. exfalso. assert (~ In h (map fst l)) by tauto. apply IH in H0. discriminate.
    + split; [|auto]. intros _ [E|E]; [apply list_eqb_spec in E; congruence|]. now apply IH in E.
Qed.

Lemma map_upd {A B} (f : A -> B) i x l : map f (upd i x l) = upd i (f x) (map f l).
Proof. revert i. induction l as [|y l IH]; intros [|i]; cbn; auto. now rewrite IH. Qed.
Lemma upd_same {A} i (l : list A) d : (i < length l)%nat -> upd i (nth i l d) l = l.
Proof. revert i. induction l as [|y l IH]; intros [|i] L; cbn in *; auto; try lia. f_equal. apply IH. lia. Qed.

Lemma merge_hashes a h u s r s' : mergeInto a h u s = Some (r, s') -> hashes s' = hashes s /\ rNames s' = rNames s /\ rPe s' = rPe s.
Proof.
  unfold mergeInto. destruct (getTorrent h (rT s)) as [i|] eqn:E; [|discriminate]. apply getTorrent_some in E as [L _].
  destruct (importTrackers a u (snd (nth i (rT s) ([], [])))) as [k b]. intros X. injection X as _ <-. cbn [rT rNames rPe hashes]. unfold hashes. cbn [rT]. rewrite map_upd. cbn [fst].
  rewrite <- (map_nth fst). change (fst ([], [])) with (@nil Z). rewrite upd_same by (now rewrite map_length). auto.
Qed.

Lemma NoDup_snoc {A} (l : list A) x : NoDup l -> ~ In x l -> NoDup (l ++ [x]).
Proof. intros N I. induction N as [|y l Y N IH]; cbn; [repeat constructor; auto|]. constructor; [rewrite in_app_iff; cbn; intros [H|[H|[]]]; subst; cbn in I; tauto|]. apply IH. cbn in I. tauto. Qed.

(** What the saved list and the listener should hold. *)
Definition inv (s : reg) : Prop := NoDup (hashes s) /\ rNames s = map hexToString (hashes s) /\ rPe s = hashes s.

Lemma namesOf_hashes l : namesOf l = map hexToString (map fst l).
Proof. unfold namesOf. now rewrite map_map. Qed.

Lemma inv_push h u s : inv s -> ~ In h (hashes s) -> inv (push h u s).
Proof.
  intros (A & B & C) N. unfold inv, push, hashes in *. cbn [rT rNames rPe]. rewrite namesOf_hashes, !map_app. cbn [map fst].
  refine (conj _ (conj eq_refl _)); [now apply NoDup_snoc|now rewrite C].
Qed.

Lemma inv_merge a h u s r s' : inv s -> mergeInto a h u s = Some (r, s') -> inv s'.
Proof. intros (A & B & C) E. apply merge_hashes in E as (E1 & E2 & E3). unfold inv. now rewrite E1, E2, E3. Qed.

Lemma merge_none a h u s : mergeInto a h u s = None -> ~ In h (hashes s).
Proof.
  unfold mergeInto. destruct (getTorrent h (rT s)) as [i|] eqn:E; [destruct (importTrackers _ _ _); discriminate|]. intros _. now apply getTorrent_none in E.
Qed.

Lemma removeFirst_at (l : list (list Z)) i h : (i < length l)%nat -> nth i l [] = h -> NoDup l -> removeFirst h l = firstn i l ++ skipn (S i) l.
Proof.
  revert i. induction l as [|x l IH]; intros [|i] L E N; cbn [length] in L; try lia.
  - cbn in E. subst. cbn [removeFirst]. rewrite list_eqb_refl. reflexivity.
  - cbn [nth] in E. inversion N as [|y z N1 N2]; subst. cbn [removeFirst]. destruct (list_eqb x (nth i l [])) eqn:X.
    + apply list_eqb_spec in X. exfalso. apply N1. rewrite X. apply nth_In. lia.
    + cbn [firstn skipn app]. f_equal. apply IH; auto. lia.
Qed.

Lemma map_drop {A B} (f : A -> B) i l : map f (firstn i l ++ skipn (S i) l) = firstn i (map f l) ++ skipn (S i) (map f l).
Proof. rewrite map_app, <- firstn_map, <- skipn_map. reflexivity. Qed.

Lemma NoDup_drop {A} i (l : list A) : NoDup l -> NoDup (firstn i l ++ skipn (S i) l).
Proof.
  revert i. induction l as [|x l IH]; intros [|i] N; cbn [firstn skipn app]; auto; inversion N; subst; auto. constructor; [|now apply IH].
  intros I. apply in_app_iff in I as [I|I]; [apply H1; rewrite <- (firstn_skipn i l); apply in_app_iff; auto|].
  apply H1. rewrite <- (firstn_skipn (S i) l). apply in_app_iff. auto.
Qed.

Lemma inv_step s o : inv s -> inv (rstep s o).
Proof.
  intros I. destruct o as [a h u p|a m|h]; cbn [rstep].
  - cbn [addFile]. destruct (mergeInto a h u s) as [[r s']|] eqn:E; [cbn; eapply inv_merge; eauto|]. apply merge_none in E. destruct p; cbn [snd]; [now apply inv_push|exact I].
  - destruct m as [[h u]|]; [|exact I]. cbn [addMagnet]. destruct (mergeInto a h u s) as [[r s']|] eqn:E; [cbn; eapply inv_merge; eauto|]. apply merge_none in E. now apply inv_push.
  - unfold removeTorrent. destruct (getTorrent h (rT s)) as [i|] eqn:E; [|exact I]. apply getTorrent_some in E as [L E]. destruct I as (A & B & C). cbn [snd]. unfold inv, hashes in *. cbn [rT rNames rPe].
    rewrite namesOf_hashes, !map_drop. refine (conj (NoDup_drop i _ A) (conj eq_refl _)). rewrite C. apply removeFirst_at; [now rewrite map_length| |exact A].
    rewrite <- E. rewrite <- (map_nth fst). reflexivity.
Qed.

Lemma inv_run ops s : inv s -> inv (fold_left rstep ops s).
Proof. revert s. induction ops as [|o ops IH]; intros s I; [exact I|]. cbn [fold_left]. apply IH, inv_step, I. Qed.

Lemma inv_start : inv noReg.
Proof. unfold inv, noReg, hashes. cbn. repeat split. constructor. Qed.

(** C46: after any sequence of additions and removals no hash is registered twice, the saved list
    names exactly the registered torrents in order, and encrypted connections are taken for
    exactly these. *)
Theorem C46_registry : forall ops, let s := fold_left rstep ops noReg in
  NoDup (map fst (rT s)) /\ rNames s = map (fun t => hexToString (fst t)) (rT s) /\ rPe s = map fst (rT s).
Proof. intros ops s. destruct (inv_run ops noReg inv_start) as (A & B & C). fold s in A, B, C. unfold hashes in *. rewrite B, map_map. auto. Qed.
Print Assumptions C46_registry.

(** The tracker list after an import: the old one, then the new addresses which were taken. *)
Lemma import_spec a urls : forall known l b, importTrackers a urls known = (l, b) ->
  (exists add, l = known ++ add /\ (b = false <-> add = []) /\ Forall (fun u => In u urls /\ a u = true) add /\ (forall x, In x add -> ~ In x known) /\ NoDup add) /\
  (forall u, In u urls -> a u = true -> In u l).
Proof.
  assert (EX : forall u known, existsb (list_eqb u) known = true <-> In u known).
  { intros u known. rewrite existsb_exists. split; [intros (x & I & E); apply list_eqb_spec in E; now subst|]. intros I. exists u. split; [exact I|apply list_eqb_refl]. }
  induction urls as [|u urls IH]; intros known l b E; cbn [importTrackers] in E.
  - injection E as <- <-. split; [|intros ? []]. exists []. rewrite app_nil_r. repeat split; auto; constructor.
  - destruct (existsb (list_eqb u) known) eqn:X.
    + destruct (IH _ _ _ E) as ((add & A & B & C & D & F) & G). apply EX in X. split.
      * exists add. repeat split; auto; try (now apply B). revert C. apply Forall_impl. cbn. tauto.
      * intros v [<-|I] AV; [rewrite A; apply in_app_iff; auto|auto].
    + assert (NX : ~ In u known) by (intros I; apply EX in I; congruence). destruct (a u) eqn:AU.
      * destruct (importTrackers a urls (known ++ [u])) as [l' b'] eqn:R. cbn [fst] in E. injection E as <- <-. destruct (IH _ _ _ R) as ((add & A & B & C & D & F) & G). split.
        -- exists (u :: add). rewrite A, <- app_assoc. cbn [app]. split; [reflexivity|]. split; [split; discriminate|]. split; [constructor; [cbn; auto|revert C; apply Forall_impl; cbn; tauto]|]. split.
           ++ intros x [<-|I]; [exact NX|]. intros K. apply (D x I). apply in_app_iff. auto.
           ++ constructor; [|exact F]. intros I. apply (D u I). apply in_app_iff. cbn. auto.
        -- intros v [<-|I] AV; [rewrite A; apply in_app_iff; left; apply in_app_iff; cbn; auto|auto].
      * destruct (IH _ _ _ E) as ((add & A & B & C & D & F) & G). split.
        -- exists add. repeat split; auto; try (now apply B). revert C. apply Forall_impl. cbn. tauto.
        -- intros v [<-|I] AV; [congruence|auto].
Qed.

(** C46: adding a torrent which is there changes nothing but its trackers, which then are the old
    ones followed by the new ones taken, each once; "merged" is told exactly if there are some. *)
Theorem C46_merge : forall accept h urls hasPieces s i, getTorrent h (rT s) = Some i ->
  exists st add s', addFile accept (Some h) urls hasPieces s = Ok (st, s') /\
    rT s' = upd i (h, snd (nth i (rT s) ([], [])) ++ add) (rT s) /\ rNames s' = rNames s /\ rPe s' = rPe s /\
    (st = SMerged /\ add <> [] \/ st = SExists /\ add = []) /\ NoDup add /\
    (forall x, In x add -> In x urls /\ accept x = true /\ ~ In x (snd (nth i (rT s) ([], [])))) /\
    (forall x, In x urls -> accept x = true -> In x (snd (nth i (rT s) ([], [])) ++ add)).
Proof.
  intros accept h urls hasPieces s i E. cbn [addFile]. unfold mergeInto. rewrite E. apply getTorrent_some in E as [L E].
  destruct (importTrackers accept urls (snd (nth i (rT s) ([], [])))) as [l b] eqn:X. apply import_spec in X as ((add & A & B & C & D & F) & G). rewrite A in *. rewrite E.
  exists (if b then SMerged else SExists), add. eexists. split; [reflexivity|]. cbn [rT rNames rPe]. refine (conj eq_refl (conj eq_refl (conj eq_refl (conj _ (conj F (conj _ G)))))).
  - destruct b; [left|right]; split; auto; [|now apply B]. intros N. apply B in N. discriminate.
  - intros x I. rewrite Forall_forall in C. destruct (C x I). repeat split; auto.
Qed.
Print Assumptions C46_merge.

(** C46: the same for a magnet link. *)
Theorem C46_merge_magnet : forall accept h urls s i, getTorrent h (rT s) = Some i -> addFile accept (Some h) urls true s = Ok (addMagnet accept (Some (h, urls)) s).
Proof. intros accept h urls s i E. cbn [addFile addMagnet]. unfold mergeInto. rewrite E. destruct (importTrackers _ _ _). reflexivity. Qed.
Print Assumptions C46_merge_magnet.

(** C46: removing takes away exactly the torrent with this hash. *)
Theorem C46_remove : forall ops h, let s := fold_left rstep ops noReg in let r := removeTorrent h s in
  (In h (map fst (rT s)) -> fst r = SSuccess) /\ (~ In h (map fst (rT s)) -> r = (SInvalid, s)) /\
  (forall t, In t (rT (snd r)) <-> In t (rT s) /\ fst t <> h).
Proof.
  intros ops h s r. destruct (inv_run ops noReg inv_start) as (A & _). fold s in A. unfold hashes in A. subst r. unfold removeTorrent. destruct (getTorrent h (rT s)) as [i|] eqn:E.
  - assert (IN : In h (map fst (rT s))) by (destruct (in_dec (list_eq_dec Z.eq_dec) h (map fst (rT s))) as [I|I]; [exact I|apply getTorrent_none in I; congruence]).
    apply getTorrent_some in E as [L E]. split; [auto|]. split; [contradiction|]. cbn [snd rT]. intros t.
    assert (SP : rT s = firstn i (rT s) ++ nth i (rT s) ([], []) :: skipn (S i) (rT s)).
    { rewrite <- (firstn_skipn i (rT s)) at 1. f_equal. clear - L. revert i L. generalize (rT s). intros l. induction l as [|x l IH]; intros [|i] L; cbn in *; try lia; auto. apply IH. lia. }
    assert (NI : ~ In h (map fst (firstn i (rT s) ++ skipn (S i) (rT s)))).
    { rewrite SP in A. rewrite map_app in A. cbn [map] in A. apply NoDup_remove_2 in A. rewrite E in A. now rewrite map_app. }
    split.
    + intros I. split; [rewrite SP; apply in_app_iff; apply in_app_iff in I as [I|I]; cbn; auto|]. intros X. apply NI. rewrite <- X. now apply in_map.
    + intros [I N]. rewrite SP in I. apply in_app_iff in I as [I|[I|I]]; try (apply in_app_iff; auto; fail). subst t. contradiction.
  - apply getTorrent_none in E. split; [contradiction|]. split; [reflexivity|]. cbn [snd]. intros t. split; [|tauto]. intros I. split; [exact I|]. intros X. apply E. rewrite <- X. now apply in_map.
Qed.
Print Assumptions C46_remove.

(** ** Restarting *)
Lemma decode_name h : bytes_ok h -> length h = 20%nat -> decodeHexa (hexToString h) 20 = Ok (Some h).
Proof. intros B L. rewrite <- L. now apply decodeHexa_hexToString. Qed.

Lemma init_loop loads : forall l s, Forall (fun h => bytes_ok h /\ length h = 20%nat) l -> NoDup (hashes s ++ l) ->
  (forall h, In h l -> exists u, loads (hexToString h) = Some u) ->
  exists s', initLoop loads (map hexToString l) s = Ok s' /\ hashes s' = hashes s ++ l /\ rPe s' = rPe s ++ l /\ rNames s' = rNames s.
Proof.
  induction l as [|h l IH]; intros s F N LO.
  - exists s. rewrite !app_nil_r. auto.
  - inversion F as [|x y [F1 F2] F3]; subst. cbn [map initLoop]. destruct (LO h (or_introl eq_refl)) as (u & ->). rewrite decode_name by assumption. cbn [bind].
    assert (NI : ~ In h (hashes s)). { intros I. apply NoDup_remove_2 in N. apply N. apply in_app_iff. auto. }
    apply getTorrent_none in NI. rewrite NI.
    destruct (IH {| rT := rT s ++ [(h, u)]; rNames := rNames s; rPe := rPe s ++ [h] |}) as (s' & A & B & C & D).
    + exact F3.
    + unfold hashes. cbn [rT]. rewrite map_app. cbn [map fst]. rewrite <- app_assoc. exact N.
    + intros h' I. apply LO. now right.
    + exists s'. split; [exact A|]. unfold hashes in *. cbn [rT rPe rNames] in *. rewrite B, C, D, map_app. cbn [map fst]. rewrite <- !app_assoc. auto.
Qed.

Definition good_op (o : rop) : Prop :=
  match o with
  | RAddFile _ h _ _ => bytes_ok h /\ length h = 20%nat
  | RAddMagnet _ (Some (h, _)) => bytes_ok h /\ length h = 20%nat
  | _ => True
  end.

Lemma good_hashes ops : forall s, Forall good_op ops -> Forall (fun h => bytes_ok h /\ length h = 20%nat) (hashes s) -> Forall (fun h => bytes_ok h /\ length h = 20%nat) (hashes (fold_left rstep ops s)).
Proof.
  induction ops as [|o ops IH]; intros s G F; [exact F|]. inversion G as [|x y G1 G2]; subst. cbn [fold_left]. apply IH; [exact G2|].
  destruct o as [a h u p|a m|h]; cbn [rstep].
  - cbn [addFile]. destruct (mergeInto a h u s) as [[r s']|] eqn:E; [cbn [snd]; apply merge_hashes in E as (-> & _); exact F|]. destruct p; [|exact F]. cbn [snd]. unfold hashes, push in *. cbn [rT]. rewrite map_app.
    apply Forall_app. split; [exact F|]. repeat constructor; apply G1.
  - destruct m as [[h u]|]; [|exact F]. cbn [addMagnet]. destruct (mergeInto a h u s) as [[r s']|] eqn:E; [cbn [snd]; apply merge_hashes in E as (-> & _); exact F|]. cbn [snd]. unfold hashes, push in *. cbn [rT]. rewrite map_app.
    apply Forall_app. split; [exact F|]. repeat constructor; apply G1.
  - unfold removeTorrent. destruct (getTorrent h (rT s)) as [i|]; [|exact F]. unfold hashes in *. cbn [snd rT]. rewrite map_drop. apply Forall_app.
    rewrite <- (firstn_skipn i (map fst (rT s))) in F at 1. apply Forall_app in F as [F1 F2]. split; [exact F1|].
    clear - F2. revert F2. generalize (map fst (rT s)). intros l. revert i. induction l as [|x l IH]; intros [|i] F2; cbn [skipn] in *; auto. now inversion F2.
Qed.

(** C46: after a restart the same torrents are registered in the same order (each whose state can
    be loaded): the saved names give the hashes back. *)
Theorem C46_restart : forall ops loads, Forall good_op ops -> let s := fold_left rstep ops noReg in
  (forall h, In h (map fst (rT s)) -> exists u, loads (hexToString h) = Some u) ->
  exists s', init loads (rNames s) = Ok s' /\ map fst (rT s') = map fst (rT s) /\ rNames s' = rNames s /\ rPe s' = map fst (rT s).
Proof.
  intros ops loads G s LO. destruct (inv_run ops noReg inv_start) as (A & B & C). fold s in A, B, C. unfold init. rewrite B.
  destruct (init_loop loads (hashes s) {| rT := []; rNames := map hexToString (hashes s); rPe := [] |}) as (s' & E1 & E2 & E3 & E4).
  - apply good_hashes; [exact G|constructor].
  - exact A.
  - exact LO.
  - exists s'. auto.
Qed.
Print Assumptions C46_restart.

(** Finding: looking for the hash and adding it are two steps. Two threads adding the same file
    can both look first: the torrent is registered twice. *)
Theorem C46_race_refuted : exists h s, getTorrent h (rT noReg) = None /\ s = push h [] (push h [] noReg) /\ ~ NoDup (map fst (rT s)).
Proof.
  exists [1], (push [1] [] (push [1] [] noReg)). split; [reflexivity|]. split; [reflexivity|]. cbn. intros N. inversion N as [|x y N1 N2]. apply N1. now left.
Qed.
Print Assumptions C46_race_refuted.

(** Finding: adding a file which is not a torrent compares a hash which was never set. *)
Theorem C46_garbage_refuted : forall accept urls p s, rT s <> [] -> addFile accept None urls p s = UB.
Proof. intros accept urls p s N. cbn. destruct (rT s); [congruence|reflexivity]. Qed.
Print Assumptions C46_garbage_refuted.

(** Finding: after a start at which a torrent could not be loaded, the saved list still names it. *)
Theorem C46_stale_refuted : exists loads names s, init loads names = Ok s /\ rNames s <> map (fun t => hexToString (fst t)) (rT s).
Proof. exists (fun _ => None), [hexToString (repeat 7 20)]. eexists. split; [reflexivity|]. cbn. discriminate. Qed.
Print Assumptions C46_stale_refuted.

Example ex_reg : let s := fold_left rstep [RAddFile (fun _ => true) (repeat 1 20) [[97]] true; RAddMagnet (fun _ => true) (Some (repeat 2 20, [])); RAddMagnet (fun _ => true) (Some (repeat 1 20, [[97]; [98]]));
    RAddFile (fun _ => true) (repeat 3 20) [] true; RRemove (repeat 2 20)] noReg in
  rT s = [(repeat 1 20, [[97]; [98]]); (repeat 3 20, [])] /\ rNames s = [hexToString (repeat 1 20); hexToString (repeat 3 20)].
Proof. vm_compute. auto. Qed.

Lemma init_any loads names : forall s s', NoDup (hashes s) -> rPe s = hashes s -> initLoop loads names s = Ok s' ->
  NoDup (hashes s') /\ rPe s' = hashes s' /\ (exists new, rT s' = rT s ++ new /\ forall h u, In (h, u) new -> exists n, In n names /\ loads n = Some u /\ decodeHexa n 20 = Ok (Some h)) /\
  (forall n h, In n names -> loads n <> None -> decodeHexa n 20 = Ok (Some h) -> In h (hashes s')).
Proof.
  induction names as [|n names IH]; intros s s' N P E.
  - cbn in E. injection E as <-. split; [exact N|]. split; [exact P|]. split; [exists []; rewrite app_nil_r; split; [reflexivity|contradiction]|contradiction].
  - cbn [initLoop] in E. destruct (loads n) as [u|] eqn:LN.
    + destruct (decodeHexa n 20) as [[h|]|] eqn:D; cbn [bind] in E; try discriminate E. destruct (getTorrent h (rT s)) as [i|] eqn:G.
      * destruct (IH s s' N P E) as (A & B & (new & C1 & C2) & D'). split; [exact A|]. split; [exact B|]. split.
        { exists new. split; [exact C1|]. intros h' u' I. destruct (C2 h' u' I) as (m & M1 & M2). exists m. split; [now right|exact M2]. }
        intros m h' [<-|I] L X; [|eauto]. rewrite D in X. injection X as <-. apply getTorrent_some in G as [G1 G2]. unfold hashes. rewrite C1, map_app, in_app_iff. left. rewrite <- G2. apply in_map, nth_In, G1.
      * apply getTorrent_none in G. destruct (IH {| rT := rT s ++ [(h, u)]; rNames := rNames s; rPe := rPe s ++ [h] |} s') as (A & B & (new & C1 & C2) & D').
        { unfold hashes. cbn [rT]. rewrite map_app. cbn [map fst]. rewrite <- (rev_involutive (map fst (rT s) ++ [h])). apply NoDup_rev. rewrite rev_app_distr. cbn [rev app]. constructor; [rewrite <- in_rev; exact G|apply NoDup_rev, N]. }
        { unfold hashes in *. cbn [rT rPe]. rewrite map_app, P. reflexivity. }
        { exact E. }
        cbn [rT] in C1. rewrite <- app_assoc in C1. split; [exact A|]. split; [exact B|]. split.
        { exists ((h, u) :: new). split; [exact C1|]. intros h' u' [X|I]; [injection X as <- <-; exists n; split; [now left|auto]|]. destruct (C2 h' u' I) as (m & M1 & M2). exists m. split; [now right|exact M2]. }
        intros m h' [<-|I] L X; [|eauto]. rewrite D in X. injection X as <-. unfold hashes. rewrite C1, map_app, in_app_iff. right. now left.
    + destruct (IH s s' N P E) as (A & B & (new & C1 & C2) & D'). split; [exact A|]. split; [exact B|]. split.
      { exists new. split; [exact C1|]. intros h' u' I. destruct (C2 h' u' I) as (m & M1 & M2). exists m. split; [now right|exact M2]. }
      intros m h' [<-|I] L X; [congruence|eauto].
Qed.

(** C46: whatever the saved list holds (also names twice, in small and capital letters), after the
    start no hash is registered twice, each registered torrent is a loadable one of the list with
    the trackers of its state, and every loadable one is registered. *)
Theorem C46_any_list : forall loads names s, init loads names = Ok s ->
  NoDup (map fst (rT s)) /\ rPe s = map fst (rT s) /\
  (forall h u, In (h, u) (rT s) -> exists n, In n names /\ loads n = Some u /\ decodeHexa n 20 = Ok (Some h)) /\
  (forall n h, In n names -> loads n <> None -> decodeHexa n 20 = Ok (Some h) -> In h (map fst (rT s))).
Proof.
  intros loads names s E. unfold init in E. destruct (init_any loads names {| rT := []; rNames := names; rPe := [] |} s) as (A & B & (new & C1 & C2) & D); [constructor|reflexivity|exact E|].
  split; [exact A|]. split; [exact B|]. split; [|exact D]. cbn in C1. rewrite C1. exact C2.
Qed.
Print Assumptions C46_any_list.

Example ex_twice : exists s, init (fun _ => Some []) [hexToString (repeat 171 20); repeat 97 40; hexToString (repeat 171 20)] = Ok s /\ map fst (rT s) = [repeat 171 20; repeat 170 20].
Proof. eexists. split; vm_compute; reflexivity. Qed.
