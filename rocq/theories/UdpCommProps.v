(** C84: requests over UDP. *)
From Verif Require Import Base BaseLemmas Assoc UdpCommModel UdpCommSpec UdpCommProofs UdpTimerProofs.
From Coq Require Import Permutation.

(** Whatever happens in whatever order: a request is sent once and at most once more; its callback gets its answer, or the
    end, at most once; after that nothing is called or sent for it; and one that was given up never ends. *)
Theorem C84_once : forall evs i, let log := uLog (urun evs) in
  (times sent i log <= 1)%nat /\ (times again i log <= 1)%nat /\ (times over i log + times given i log <= 1)%nat /\
  (forall a x b, log = a ++ x :: b -> over x = true -> Forall (fun y => about y <> about x) b).
Proof.
  intros evs i log. pose proof (inv_run evs) as I. split; [rewrite (inv_sent _ _ I); destruct (_ && _); lia|]. split; [apply (inv_most _ _ I)|]. split; [|exact (inv_ordered _ _ I)].
  destruct (in_dec Z.eq_dec i (map fst (uPend (urun evs) ++ hand (urun evs)))) as [H|H].
  - destruct (inv_held _ _ I i H) as [E1 E2]. unfold log. rewrite E1, E2. lia.
  - destruct (Z.leb_spec 0 i); [destruct (Z.ltb_spec i (uNext (urun evs)))|].
    + unfold log. rewrite (inv_done _ _ I i ltac:(lia) H). lia.
    + unfold log. rewrite !times_zero; [lia|intros x Q; pose proof (inv_new _ _ I x Q); lia..].
    + unfold log. rewrite !times_zero; [lia|intros x Q; pose proof (inv_new _ _ I x Q); lia..].
Qed.
Print Assumptions C84_once.

(** No request is lost: each one sent is still waiting, or ended, or was given up; never two of them. *)
Theorem C84_kept : forall evs i, let s := urun evs in times sent i (uLog s) = 1%nat ->
  if in_dec Z.eq_dec i (map fst (waiting s)) then times over i (uLog s) = 0%nat /\ times given i (uLog s) = 0%nat
  else (times over i (uLog s) + times given i (uLog s) = 1)%nat.
Proof.
  intros evs i s S. pose proof (inv_run evs) as I. fold s in I. rewrite (inv_sent _ _ I) in S. destruct (Z.leb_spec 0 i), (Z.ltb_spec i (uNext s)); cbn [andb] in S; try discriminate.
  destruct (in_dec Z.eq_dec i (map fst (waiting s))) as [W|W]; [exact (inv_held _ _ I i W)|]. apply (inv_done _ _ I); [lia|exact W].
Qed.
Print Assumptions C84_kept.

(** * Who is asked about an answer *)

Definition isAnswer (x : ucall) : bool := match x with UAnswer _ _ => true | _ => false end.

(** those asked about an answer, in turn until one takes it *)
Fixpoint asked (cb : Z -> bool * list Z) (found : list (Z * Z)) : list ucall :=
  match found with [] => [] | (i, _) :: l => if fst (cb i) then [UAnswer i true] else UAnswer i false :: asked cb l end.

Lemma sends_answers cs : forall s, filter isAnswer (uLog (sends cs s)) = filter isAnswer (uLog s).
Proof. induction cs as [|c cs IH]; intros s; [reflexivity|]. cbn [fold_left]. rewrite IH. cbn [usend uLog]. rewrite filter_app. cbn. apply app_nil_r. Qed.

Lemma answers_log cb found : forall h s, filter isAnswer (uLog (fst (answers cb found h s))) = filter isAnswer (uLog s) ++ (if h then [] else asked cb found).
Proof.
  induction found as [|[i c] l IH]; intros h s; [destruct h; symmetry; apply app_nil_r|]. cbn [answers asked]. destruct h; [rewrite IH; reflexivity|].
  destruct (fst (cb i)); rewrite IH; cbn [ureset withPend uLog]; rewrite sends_answers; cbn [withLog uLog]; rewrite filter_app; cbn [filter isAnswer]; [apply app_nil_r|]. rewrite <- app_assoc. reflexivity.
Qed.

Lemma sends_pend_in cs : forall s q, In q (uPend s) -> In q (uPend (sends cs s)).
Proof. induction cs as [|c cs IH]; intros s q H; [exact H|]. cbn [fold_left]. apply IH. cbn [usend uPend]. apply in_or_app. now left. Qed.

Lemma answers_stay cb found : forall h s p, In p (uPend s) \/ (In p found /\ (h = true \/ ~ In (UAnswer (fst p) true) (asked cb found))) -> In p (uPend (fst (answers cb found h s))).
Proof.
  induction found as [|[i c] l IH]; intros h s p H; [destruct H as [H|[[] _]]; exact H|]. cbn [answers asked] in *.
  destruct h.
  - apply IH. cbn [withPend uPend]. destruct H as [H|[[<-|H] _]]; [left; apply in_or_app; now left|left; apply in_elt|right; split; [exact H|now left]].
  - destruct (fst (cb i)) eqn:E; apply IH.
    + cbn [ureset uPend]. destruct H as [H|[H1 [H2|H2]]]; [left; apply sends_pend_in; exact H|discriminate|]. destruct H1 as [<-|H1]; [exfalso; apply H2; now left|]. right. split; [exact H1|now left].
    + cbn [withPend uPend]. destruct H as [H|[H1 [H2|H2]]]; [left; apply in_or_app; left; apply sends_pend_in; exact H|discriminate|].
      destruct H1 as [<-|H1]; [left; apply in_elt|]. right. split; [exact H1|]. right. intros Q. apply H2. now right.
Qed.

Lemma answers_handled cb found : forall h s, snd (answers cb found h s) = h || existsb (fun p => fst (cb (fst p))) found.
Proof.
  induction found as [|[i c] l IH]; intros h s; [cbn; now rewrite orb_false_r|]. cbn [answers existsb fst]. destruct h; [rewrite IH; reflexivity|]. destruct (fst (cb i)) eqn:E; rewrite IH; reflexivity.
Qed.

(** An answer is offered to the requests waiting for its sender only, in turn until one takes it; all others keep waiting. If
    nobody takes it, it is passed on. *)
Theorem C84_receive : forall s hits cb, uBusy s = None ->
  let found := filter (fun p => hits (snd p)) (uPend s) in let s' := ustep (ustep s (ETake hits)) (EDone cb) in
  filter isAnswer (uLog s') = filter isAnswer (uLog s) ++ asked cb found /\
  (forall p, In p (uPend s) -> ~ In (UAnswer (fst p) true) (asked cb found) -> In p (uPend s')) /\
  snd (answers cb found false (withBusy None (ustep s (ETake hits)))) = existsb (fun p => fst (cb (fst p))) found /\ uBusy s' = None.
Proof.
  intros s hits cb B found s'. unfold s'. cbn [ustep]. rewrite B. cbn [ustep withBusy uBusy]. fold found.
  split; [rewrite answers_log; reflexivity|]. split.
  - intros p I N. apply answers_stay. cbn [withBusy withPend uPend]. destruct (hits (snd p)) eqn:H; [right|left].
    + split; [apply filter_In; split; assumption|now right].
    + apply filter_In. rewrite H. split; [exact I|reflexivity].
  - split; [apply answers_handled|]. rewrite answers_busy. reflexivity.
Qed.
Print Assumptions C84_receive.

(** * Timers *)

(** Full statement: every request waiting has a timer running or a check of it under way. It holds as long as no timer
    expires while answers are handled, or for a client with several requests (the refutations below). *)
Theorem C84_timer_partial : forall evs, calm startComm evs -> forall p, In p (waiting (urun evs)) -> In p (uArmed (urun evs)) \/ In (Some p) (uLooked (urun evs)).
Proof. intros evs C p I. exact (tm_all _ _ (tm_calm evs startComm C inv_start tm_start) p I). Qed.
Print Assumptions C84_timer_partial.

Lemma find_armed i c s : In (i, c) (uArmed s) -> (forall q, In q (uArmed s) -> fst q = i -> q = (i, c)) -> find (fun t => fst t =? i) (uArmed s) = Some (i, c).
Proof.
  intros I U. destruct (find (fun t => fst t =? i) (uArmed s)) as [t|] eqn:F.
  - apply find_some in F as [F E]. apply Z.eqb_eq in E. rewrite (U t F E). reflexivity.
  - pose proof (find_none _ _ F (i, c) I) as N. cbn in N. rewrite Z.eqb_refl in N. discriminate.
Qed.

Lemma find_first i c s : In (i, c) (uPend s) -> (forall q, In q (uPend s) -> snd q = c -> q = (i, c)) -> firstOf c (uPend s) = Some (i, c).
Proof.
  intros I U. unfold firstOf. destruct (find (fun p => snd p =? c) (uPend s)) as [t|] eqn:F.
  - apply find_some in F as [F E]. apply Z.eqb_eq in E. rewrite (U t F E). reflexivity.
  - pose proof (find_none _ _ F (i, c) I) as N. cbn in N. rewrite Z.eqb_refl in N. discriminate.
Qed.

(** A request whose timer expires the first time is sent again and gets a new timer; the second time its callback is called
    without an answer and it is over. *)
Theorem C84_expires : forall evs i c cb, let s := urun evs in uBusy s = None -> In (i, c) (uPend s) -> In (i, c) (uArmed s) ->
  (forall q, In q (uPend s) -> snd q = c -> q = (i, c)) -> (forall q, In q (uArmed s) -> fst q = i -> q = (i, c)) ->
  let s' := ustep (ustep s (EFire i)) (ELook (length (uLooked s)) cb) in
  (times again i (uLog s) = 0%nat -> uLog s' = uLog s ++ [UAgain i] /\ uPend s' = uPend s /\ In (i, c) (uArmed s') /\ uBusy s' = None /\ (forall q, In q (uArmed s') -> fst q = i -> q = (i, c))) /\
  (times again i (uLog s) = 1%nat -> exists l, uLog s' = uLog s ++ UNone i :: l /\ Forall (fun x => sent x = true) l /\ ~ In i (map fst (waiting s'))).
Proof.
  intros evs i c cb s B IP IA UP UA s'. pose proof (inv_run evs) as I. fold s in I. unfold hand in I. rewrite B in I.
  assert (HI : In i (map fst (uPend s ++ []))) by (rewrite app_nil_r; exact (in_map fst _ _ IP)). destruct (inv_held _ _ I i HI) as [O G]. pose proof (inv_again _ _ I i O) as AG.
  unfold s'. cbn [ustep]. rewrite (find_armed i c s IA UA). cbn [snd uBusy uLooked uPend]. rewrite B. rewrite (find_first i c s IP UP).
  rewrite nth_error_app2, Nat.sub_diag by apply le_n. cbn [nth_error]. unfold without. rewrite firstn_app, firstn_all, Nat.sub_diag. cbn [firstn].
  rewrite skipn_all2 by (rewrite app_length; cbn; lia). rewrite !app_nil_r. unfold checkFound, withLooked, retriesOf. cbn [uRetries uPend uArmed uLog uNext uBusy fst snd]. fold (retriesOf s i). rewrite AG.
  split; intros A; rewrite A; cbn [Z.of_nat].
  - change (Z.of_nat 0 =? 255) with false. change (0 <? Z.of_nat 0) with false. cbn iota. cbn [uLog uPend uArmed uBusy]. split; [reflexivity|]. split; [reflexivity|].
    replace (existsb (fun q => fst q =? i) (uPend s)) with true; [|symmetry; apply existsb_exists; exists (i, c); split; [exact IP|apply Z.eqb_refl]].
    split; [apply in_elt|]. split; [reflexivity|]. intros q Q E. apply in_app_or in Q as [Q|[<-|[]]]; [do 2 (apply disarm_in in Q as [Q _]); exact (UA q Q E)|reflexivity].
  - change (Z.of_nat 1 =? 255) with false. change (0 <? Z.of_nat 1) with true. cbn iota.
    set (t := {| uNext := uNext s; uPend := uPend s; uRetries := uRetries s; uArmed := disarm i (uArmed s); uLooked := uLooked s; uBusy := None; uLog := uLog s |}).
    assert (It : inv [] t) by (destruct I; constructor; assumption).
    unfold uclose. assert (F : filter (fun p => snd p =? c) (uPend t) = [(i, c)]).
    { assert (ND := inv_nodup _ _ I). rewrite app_nil_r in ND. apply NoDup_map_inv in ND. cbn [t uPend]. revert IP UP ND. generalize (uPend s) as l. induction l as [|q l IH]; intros IP UP ND; [destruct IP|].
      apply NoDup_cons_iff in ND as [N1 N2]. cbn [filter]. destruct (Z.eqb_spec (snd q) c) as [E|E].
      - pose proof (UP q (or_introl eq_refl) E) as ->. f_equal. destruct (filter (fun p => snd p =? c) l) as [|r m] eqn:R; [reflexivity|]. exfalso. assert (Q : In r (filter (fun p => snd p =? c) l)) by (rewrite R; now left).
        apply filter_In in Q as [Q E2]. apply Z.eqb_eq in E2. pose proof (UP r (or_intror Q) E2) as ->. contradiction.
      - apply IH; [destruct IP as [->|IP]; [contradiction E; reflexivity|exact IP]|intros r Q; apply UP; now right|exact N2]. }
    rewrite F. cbn [noAnswers]. 
    assert (S : forall cs s, exists l, uLog (sends cs s) = uLog s ++ l /\ Forall (fun x => sent x = true) l).
    { induction cs as [|d cs IH]; intros s0; [exists []; split; [symmetry; apply app_nil_r|apply Forall_nil]|]. cbn [fold_left]. destruct (IH (usend d s0)) as (l & E & Fl). cbn [usend uLog] in E.
      exists (USent (uNext s0) :: l). rewrite E, <- app_assoc. split; [reflexivity|]. apply Forall_cons; [reflexivity|exact Fl]. }
    destruct (S (snd (cb i)) (withLog (UNone i) (ureset i (withPend (filter (fun p => negb (snd p =? c)) (uPend t)) t)))) as (l & E & Fl).
    exists l. split; [rewrite E; cbn [withLog ureset withPend uLog t]; rewrite <- app_assoc; reflexivity|]. split; [exact Fl|].
    assert (IC : inv [] (uclose cb c t)) by (apply inv_close, It). unfold uclose in IC. rewrite F in IC. cbn [noAnswers] in IC.
    intros Q. unfold waiting in Q. rewrite sends_busy in Q. cbn [withLog ureset withPend uBusy t] in Q. destruct (inv_held _ _ IC i Q) as [O2 _]. rewrite E in O2. rewrite times_app in O2. cbn [withLog uLog] in O2. rewrite times_app, times_one in O2. cbn [over about andb] in O2. rewrite Z.eqb_refl in O2. lia.
Qed.
Print Assumptions C84_expires.

(** Finding: the timer looks for its request before it waits for the answers being handled. If it expires just then, it finds
    nothing, the request goes on waiting, and neither a timer nor a check is left for it. *)
Theorem C84_lost_timer_refuted : forall c, let s := urun [ESend c; ETake (Z.eqb c); EFire 0; EDone (fun _ => (false, [])); ELook 0 (fun _ => (false, []))] in
  uPend s = [(0, c)] /\ uArmed s = [] /\ uLooked s = [] /\ uBusy s = None /\ times over 0 (uLog s) = 0%nat.
Proof. intros c. unfold urun, fold_left, ustep, usend. cbn [uBusy startComm uPend uNext app filter snd]. rewrite Z.eqb_refl. repeat split; reflexivity. Qed.
Print Assumptions C84_lost_timer_refuted.

(** Finding: two requests over one client (a tracker asked again while connecting): the timer of the second looks up the
    first, which is sent again instead; the second has no timer left and waits on when the first is answered. *)
Theorem C84_other_timer_refuted : let no := fun _ : Z => (false, @nil Z) in let s := urun [ESend 7; ESend 7; EFire 1; ELook 0 no; ETake (Z.eqb 7); EDone (fun i => (i =? 0, []))] in
  uPend s = [(1, 7)] /\ uArmed s = [] /\ uLooked s = [] /\ uBusy s = None /\ times again 0 (uLog s) = 1%nat /\ times again 1 (uLog s) = 0%nat.
Proof. repeat split; reflexivity. Qed.
Print Assumptions C84_other_timer_refuted.

(** Finding: the end of the first ends the second too, which was just sent. *)
Theorem C84_ends_other_refuted : let no := fun _ : Z => (false, @nil Z) in let s := urun [ESend 7; EFire 0; ELook 0 no; ESend 7; EFire 0; ELook 0 no] in
  uLog s = [USent 0; UAgain 0; USent 1; UNone 0; UNone 1].
Proof. reflexivity. Qed.
Print Assumptions C84_ends_other_refuted.

(** Finding: giving up a client gives up its first request only: the callback of the second, bound to the tracker that was
    destroyed, is still called. *)
Theorem C84_given_up_refuted : let s := urun [ESend 7; ESend 7; ERemove 7; ETake (Z.eqb 7); EDone (fun _ => (true, []))] in
  uLog s = [USent 0; USent 1; UGiven 0; UAnswer 1 true].
Proof. reflexivity. Qed.
Print Assumptions C84_given_up_refuted.

(** Three requests, two to one address: an answer refused by the first and taken by the second, whose callback sends another;
    the third is sent again; it expires. *)
Example C84_meets :
  let cb := fun i : Z => (i =? 1, if i =? 1 then [9] else []) in let hits := fun c => c <? 7 in
  let evs := [ESend 5; ESend 6; ESend 7; ETake hits; ESend 8; EDone cb; EFire 2; ELook 0 cb] in let s := urun evs in
  calm startComm evs /\ uLog s = [USent 0; USent 1; USent 2; USent 3; UAnswer 0 false; UAnswer 1 true; USent 4; UAgain 2] /\ uPend s = [(2, 7); (3, 8); (0, 5); (4, 9)] /\ uBusy s = None /\ In (2, 7) (uArmed s) /\ times again 2 (uLog s) = 1%nat /\ (forall q, In q (uPend s) -> snd q = 7 -> q = (2, 7)) /\ (forall q, In q (uArmed s) -> fst q = 2 -> q = (2, 7)).
Proof.
  split; [|split; [reflexivity|split; [reflexivity|split; [reflexivity|split; [vm_compute; tauto|split; [reflexivity|split]]]]]].
  - vm_compute. repeat (split; [exact I|]). split; [|repeat (split; [exact I|]); exact I]. split; [reflexivity|]. intros p q P Q E F.
    repeat (destruct P as [<-|P]; [try discriminate E|]); [|destruct P]. repeat (destruct Q as [<-|Q]; [first [discriminate F|reflexivity]|]). destruct Q.
  - vm_compute. intros q Q E. repeat (destruct Q as [<-|Q]; [first [discriminate E|reflexivity]|]). destruct Q.
  - vm_compute. intros q Q E. repeat (destruct Q as [<-|Q]; [first [discriminate E|reflexivity]|]). destruct Q.
Qed.
