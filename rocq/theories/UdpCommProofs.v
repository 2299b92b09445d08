From Verif Require Import Base BaseLemmas Assoc UdpCommModel UdpCommSpec.
From Coq Require Import Permutation.

Lemma times_app f i a b : times f i (a ++ b) = (times f i a + times f i b)%nat.
Proof. induction a as [|x a IH]; [reflexivity|]. cbn [app times]. rewrite IH. lia. Qed.

Lemma times_one f i x : times f i [x] = if f x && (about x =? i) then 1%nat else 0%nat.
Proof. cbn. lia. Qed.

(** nothing is said about a request after it was over *)
Definition ordered (l : list ucall) : Prop := forall a x b, l = a ++ x :: b -> over x = true -> Forall (fun y => about y <> about x) b.

Lemma times_in f i l : (exists x, In x l /\ f x = true /\ about x = i) -> (0 < times f i l)%nat.
Proof. intros (x & I & F & A). induction l as [|y l IH]; [destruct I|]. cbn [times]. destruct I as [->|I]; [rewrite F, A, Z.eqb_refl; cbn; lia|]. specialize (IH I). lia. Qed.

Lemma times_zero f i l : (forall x, In x l -> about x <> i) -> times f i l = 0%nat.
Proof. induction l as [|y l IH]; intros H; [reflexivity|]. cbn [times]. rewrite IH by (intros x I; apply H; now right). destruct (Z.eqb_spec (about y) i) as [E|E]; [exfalso; apply (H y); [now left|exact E]|]. rewrite andb_false_r. reflexivity. Qed.

Lemma ordered_snoc l x : ordered l -> times over (about x) l = 0%nat -> ordered (l ++ [x]).
Proof.
  intros O T a y b E F. induction b as [|z b _] using rev_ind; [apply Forall_nil|].
  rewrite app_comm_cons, app_assoc in E. apply app_inj_tail in E as [E1 <-]. apply Forall_app. split; [exact (O a y b E1 F)|]. apply Forall_cons; [|apply Forall_nil]. intros Q.
  assert (0 < times over (about x) l)%nat; [|lia]. apply times_in. exists y. split; [rewrite E1; apply in_elt|]. split; [exact F|symmetry; exact Q].
Qed.

(** the invariant; [H] are requests in hand *)
Record inv (H : list (Z * Z)) (s : ucomm) : Prop := {
  inv_nodup : NoDup (map fst (uPend s ++ H));
  inv_range : Forall (fun p => 0 <= fst p < uNext s) (uPend s ++ H);
  inv_held : forall i, In i (map fst (uPend s ++ H)) -> times over i (uLog s) = 0%nat /\ times given i (uLog s) = 0%nat;
  inv_done : forall i, 0 <= i < uNext s -> ~ In i (map fst (uPend s ++ H)) -> (times over i (uLog s) + times given i (uLog s) = 1)%nat;
  inv_over : forall i, (0 < times over i (uLog s))%nat -> retriesOf s i = 255;
  inv_again : forall i, times over i (uLog s) = 0%nat -> retriesOf s i = Z.of_nat (times again i (uLog s));
  inv_most : forall i, (times again i (uLog s) <= 1)%nat;
  inv_sent : forall i, times sent i (uLog s) = if (0 <=? i) && (i <? uNext s) then 1%nat else 0%nat;
  inv_new : forall x, In x (uLog s) -> 0 <= about x < uNext s;
  inv_ordered : ordered (uLog s);
  inv_looked : forall p, In (Some p) (uLooked s) -> 0 <= fst p < uNext s;
  inv_pos : 0 <= uNext s }.

Lemma inv_start : inv [] startComm.
Proof.
  constructor; cbn; try (intros; lia); try (intros; contradiction); try constructor.
  - intros i. destruct (0 <=? i) eqn:A, (i <? 0) eqn:B; try reflexivity. lia.
  - intros a x b E. destruct a; discriminate.
Qed.

(** what the invariant sees of the order of the requests *)
Lemma inv_perm H H' l s : Permutation (uPend s ++ H) (l ++ H') -> inv H s -> inv H' (withPend l s).
Proof.
  intros P []. assert (Pm := Permutation_map fst P). constructor; cbn [withPend uNext uPend uRetries uArmed uLooked uBusy uLog]; try assumption.
  - eapply Permutation_NoDup; [exact Pm|assumption].
  - apply Forall_forall. intros p I. apply (proj1 (Forall_forall _ _) inv_range0). eapply Permutation_in; [apply Permutation_sym; exact P|exact I].
  - intros i I. apply inv_held0. eapply Permutation_in; [apply Permutation_sym; exact Pm|exact I].
  - intros i R N. apply inv_done0; [exact R|]. intros I. apply N. eapply Permutation_in; [exact Pm|exact I].
Qed.

Lemma inv_busy H b s : inv H s -> inv H (withBusy b s).
Proof. intros []. constructor; assumption. Qed.

Lemma inv_send H c s : inv H s -> inv H (usend c s).
Proof.
  intros []. assert (FR : forall x, In x (uLog s) -> about x <> uNext s) by (intros x I; specialize (inv_new0 x I); lia).
  assert (NI : ~ In (uNext s) (map fst (uPend s ++ H))).
  { intros I. apply in_map_iff in I as (p & E & I). pose proof (proj1 (Forall_forall _ _) inv_range0 p I) as Q. cbn in Q. lia. }
  assert (P : Permutation (map fst ((uPend s ++ [(uNext s, c)]) ++ H)) (uNext s :: map fst (uPend s ++ H))).
  { rewrite <- app_assoc. rewrite !map_app. cbn [map fst app]. symmetry. apply Permutation_middle. }
  constructor; cbn [usend uNext uPend uRetries uArmed uLooked uBusy uLog].
  - eapply Permutation_NoDup; [symmetry; exact P|]. constructor; assumption.
  - apply Forall_app in inv_range0 as [R1 R2]. apply Forall_app. split; [apply Forall_app; split|].
    + eapply Forall_impl; [|exact R1]. cbn beta. lia.
    + apply Forall_cons; [cbn; lia|apply Forall_nil].
    + eapply Forall_impl; [|exact R2]. cbn beta. lia.
  - intros i I. apply (Permutation_in _ P) in I. rewrite !times_app, !times_one. cbn [over given andb]. rewrite !Nat.add_0_r. destruct I as [<-|I]; [|apply inv_held0; exact I].
    split; apply times_zero; exact FR.
  - intros i R N. rewrite !times_app, !times_one. cbn [over given andb]. rewrite !Nat.add_0_r. apply inv_done0.
    + assert (i <> uNext s); [|lia]. intros ->. apply N. eapply Permutation_in; [symmetry; exact P|now left].
    + intros I. apply N. eapply Permutation_in; [symmetry; exact P|now right].
  - intros i. rewrite times_app, times_one. cbn [over andb]. rewrite Nat.add_0_r. apply inv_over0.
  - intros i. rewrite !times_app, !times_one. cbn [over again andb]. rewrite !Nat.add_0_r. apply inv_again0.
  - intros i. rewrite !times_app, !times_one. cbn [over again andb]. rewrite !Nat.add_0_r. apply inv_most0.
  - intros i. rewrite times_app, times_one, inv_sent0. cbn [sent about andb]. destruct (Z.eqb_spec (uNext s) i), (Z.leb_spec 0 i), (Z.ltb_spec i (uNext s)), (Z.ltb_spec i (uNext s + 1)); cbn [andb]; lia.
  - intros x I. apply in_app_or in I as [I|[<-|[]]]; [specialize (inv_new0 x I); lia|cbn; lia].
  - apply ordered_snoc; [assumption|]. cbn [about]. apply times_zero. exact FR.
  - intros p I. specialize (inv_looked0 p I). lia.
  - lia.
Qed.

Lemma inv_sends H cs s : inv H s -> inv H (fold_left (fun s c => usend c s) cs s).
Proof. revert s. induction cs as [|c cs IH]; intros s I; [exact I|]. cbn [fold_left]. apply IH, inv_send, I. Qed.

Lemma retries_set s i n j l b k : retriesOf {| uNext := uNext s; uPend := l; uRetries := aset i n (uRetries s); uArmed := b; uLooked := k; uBusy := uBusy s; uLog := uLog s |} j
  = if j =? i then n else retriesOf s j.
Proof. unfold retriesOf. cbn [uRetries]. destruct (Z.eqb_spec j i) as [->|N]; [now rewrite aget_set_same|now rewrite aget_set_other]. Qed.

(** a request in hand is over: logged first or reset first is the same *)
Lemma inv_end H i c x s : about x = i -> over x = true -> inv ((i, c) :: H) s ->
  inv H (ureset i (withLog x s)).
Proof.
  intros A O []. assert (Hd := inv_held0 i ltac:(rewrite map_app; apply in_or_app; right; now left)). destruct Hd as [H0 H1].
  assert (P : Permutation (map fst (uPend s ++ (i, c) :: H)) (i :: map fst (uPend s ++ H))) by (rewrite !map_app; cbn [map fst]; symmetry; apply Permutation_middle).
  assert (ND : NoDup (i :: map fst (uPend s ++ H))) by (eapply Permutation_NoDup; [exact P|assumption]). apply NoDup_cons_iff in ND as [NI ND'].
  assert (HR : 0 <= i < uNext s) by (apply (proj1 (Forall_forall _ _) inv_range0 (i, c)); apply in_elt).
  assert (GX : given x = false) by (destruct x as [| |? []| |]; try discriminate; reflexivity).
  assert (AX : again x = false) by (destruct x as [| |? []| |]; try discriminate; reflexivity).
  assert (SX : sent x = false) by (destruct x as [| |? []| |]; try discriminate; reflexivity).
  assert (T : forall f j, times f j (uLog s ++ [x]) = (times f j (uLog s) + if f x && (i =? j)%Z then 1 else 0)%nat) by (intros f j; rewrite times_app, times_one, A; reflexivity).
  constructor; cbn [ureset withLog uNext uPend uRetries uArmed uLooked uBusy uLog]; try assumption.
  - apply Forall_forall. intros p I. apply (proj1 (Forall_forall _ _) inv_range0). apply in_app_or in I as [I|I]; apply in_or_app; [now left|right; now right].
  - intros j I. assert (j <> i) by (intros ->; contradiction). rewrite !T, O, GX. cbn [andb]. destruct (Z.eqb_spec i j); [congruence|]. rewrite !Nat.add_0_r. apply inv_held0.
    eapply Permutation_in; [symmetry; exact P|now right].
  - intros j R N. rewrite !T, O, GX. cbn [andb]. destruct (Z.eqb_spec i j) as [<-|NE]; [lia|]. rewrite !Nat.add_0_r. apply inv_done0; [exact R|]. intros I. apply N.
    apply (Permutation_in _ P) in I as [I|I]; [congruence|exact I].
  - intros j. rewrite T, O. cbn [andb]. unfold ureset, withLog. cbn [uRetries]. unfold retriesOf. cbn [uRetries]. destruct (Z.eqb_spec i j) as [<-|NE]; [intros _; now rewrite aget_set_same|].
    rewrite Nat.add_0_r. rewrite aget_set_other by congruence. apply inv_over0.
  - intros j. rewrite !T, O, AX. cbn [andb]. destruct (Z.eqb_spec i j) as [<-|NE]; [lia|]. rewrite !Nat.add_0_r. unfold retriesOf. cbn [ureset withLog uRetries]. rewrite aget_set_other by congruence. apply inv_again0.
  - intros j. rewrite T, AX. cbn [andb]. rewrite Nat.add_0_r. apply inv_most0.
  - intros j. rewrite T, SX. cbn [andb]. rewrite Nat.add_0_r. apply inv_sent0.
  - intros y I. apply in_app_or in I as [I|[<-|[]]]; [apply inv_new0; exact I|lia].
  - apply ordered_snoc; [assumption|]. rewrite A. exact H0.
Qed.

(** an answer not taken, or one more given up that waits no longer *)
Lemma inv_log H i x s : about x = i -> over x = false -> given x = false -> again x = false -> sent x = false -> In i (map fst (uPend s ++ H)) -> inv H s -> inv H (withLog x s).
Proof.
  intros A O G AG SE I0 []. destruct (inv_held0 i I0) as [H0 H1].
  assert (T : forall f j, f x = false -> times f j (uLog s ++ [x]) = times f j (uLog s)) by (intros f j F; rewrite times_app, times_one, F; cbn [andb]; lia).
  constructor; cbn [withLog uNext uPend uRetries uArmed uLooked uBusy uLog]; try assumption.
  - intros j. rewrite !T by assumption. apply inv_held0.
  - intros j. rewrite !T by assumption. apply inv_done0.
  - intros j. rewrite !T by assumption. apply inv_over0.
  - intros j. rewrite !T by assumption. apply inv_again0.
  - intros j. rewrite !T by assumption. apply inv_most0.
  - intros j. rewrite !T by assumption. apply inv_sent0.
  - intros y Q. apply in_app_or in Q as [Q|[<-|[]]]; [auto|]. rewrite A. apply in_map_iff in I0 as (p & <- & I0). exact (proj1 (Forall_forall _ _) inv_range0 p I0).
  - apply ordered_snoc; [assumption|]. rewrite A. exact H0.
Qed.

Lemma inv_give H i c s : inv ((i, c) :: H) s -> inv H (ugive i s).
Proof.
  intros []. assert (Hd := inv_held0 i ltac:(rewrite map_app; apply in_or_app; right; now left)). destruct Hd as [H0 H1].
  assert (P : Permutation (map fst (uPend s ++ (i, c) :: H)) (i :: map fst (uPend s ++ H))) by (rewrite !map_app; cbn [map fst]; symmetry; apply Permutation_middle).
  assert (ND : NoDup (i :: map fst (uPend s ++ H))) by (eapply Permutation_NoDup; [exact P|assumption]). apply NoDup_cons_iff in ND as [NI ND'].
  assert (HR : 0 <= i < uNext s) by (apply (proj1 (Forall_forall _ _) inv_range0 (i, c)); apply in_elt).
  assert (T : forall f j, times f j (uLog s ++ [UGiven i]) = (times f j (uLog s) + if f (UGiven i) && (i =? j)%Z then 1 else 0)%nat) by (intros f j; rewrite times_app, times_one; reflexivity).
  constructor; cbn [ugive uNext uPend uRetries uArmed uLooked uBusy uLog]; try assumption.
  - apply Forall_forall. intros p I. apply (proj1 (Forall_forall _ _) inv_range0). apply in_app_or in I as [I|I]; apply in_or_app; [now left|right; now right].
  - intros j I. assert (j <> i) by (intros ->; contradiction). rewrite !T. cbn [over given andb]. destruct (Z.eqb_spec i j); [congruence|]. rewrite !Nat.add_0_r. apply inv_held0.
    eapply Permutation_in; [symmetry; exact P|now right].
  - intros j R N. rewrite !T. cbn [over given andb]. destruct (Z.eqb_spec i j) as [<-|NE]; [lia|]. rewrite !Nat.add_0_r. apply inv_done0; [exact R|]. intros I. apply N.
    apply (Permutation_in _ P) in I as [I|I]; [congruence|exact I].
  - intros j. rewrite T. cbn [over andb]. rewrite Nat.add_0_r. apply inv_over0.
  - intros j. rewrite !T. cbn [over again andb]. rewrite !Nat.add_0_r. apply inv_again0.
  - intros j. rewrite !T. cbn [again andb]. rewrite !Nat.add_0_r. apply inv_most0.
  - intros j. rewrite !T. cbn [sent andb]. rewrite !Nat.add_0_r. apply inv_sent0.
  - intros y I. apply in_app_or in I as [I|[<-|[]]]; [apply inv_new0; exact I|cbn; lia].
  - apply ordered_snoc; [assumption|]. exact H0.
Qed.

Notation sends cs s := (fold_left (fun a b => usend b a) cs s).

Lemma reset_sends cs : forall i s, i < uNext s -> ureset i (sends cs s) = sends cs (ureset i s).
Proof.
  induction cs as [|c cs IH]; intros i s H; [reflexivity|]. cbn [fold_left]. rewrite IH by (cbn [usend uNext]; lia). f_equal.
  unfold ureset, usend. cbn [uNext uPend uRetries uArmed uLooked uBusy uLog]. f_equal. unfold disarm. rewrite filter_app. f_equal. cbn [filter fst].
  destruct (Z.eqb_spec (uNext s) i); [lia|reflexivity].
Qed.

Lemma held_send H i c s : In i (map fst (uPend s ++ H)) -> In i (map fst (uPend (usend c s) ++ H)).
Proof. cbn [usend uPend]. rewrite !map_app. intros I. apply in_app_or in I as [I|I]; apply in_or_app; [left; apply in_or_app; now left|now right]. Qed.

(** the callbacks of [answers] *)
Lemma inv_answers cb found : forall handled s, inv found s -> inv [] (fst (answers cb found handled s)).
Proof.
  induction found as [|[i c] l IH]; intros handled s I; [exact I|]. cbn [answers].
  assert (PB : forall s, inv ((i, c) :: l) s -> inv l (withPend (uPend s ++ [(i, c)]) s)).
  { intros s' I'. apply (inv_perm ((i, c) :: l)); [|exact I']. rewrite <- app_assoc. apply Permutation_refl. }
  destruct handled; [apply IH, PB, I|]. destruct (fst (cb i)) eqn:E.
  - apply IH. assert (Q : inv l (ureset i (withLog (UAnswer i true) s))) by (apply (inv_end l i c); [reflexivity|reflexivity|exact I]).
    rewrite reset_sends; [apply inv_sends, Q|]. cbn [withLog uNext]. exact (proj2 (proj1 (Forall_forall _ _) (inv_range _ _ I) (i, c) (in_elt _ _ _))).
  - apply IH, PB, inv_sends. apply (inv_log _ i); try reflexivity; [|exact I]. rewrite map_app. apply in_or_app. right. now left.
Qed.

Lemma inv_noAnswers cb found : forall s, inv found s -> inv [] (noAnswers cb found s).
Proof.
  induction found as [|[i c] l IH]; intros s I; [exact I|]. cbn [noAnswers]. apply IH, inv_sends. change (withLog (UNone i) (ureset i s)) with (ureset i (withLog (UNone i) s)).
  apply (inv_end l i c); [reflexivity|reflexivity|exact I].
Qed.

Lemma filter_split {A} (f : A -> bool) l : Permutation l (filter (fun x => negb (f x)) l ++ filter f l).
Proof.
  induction l as [|x l IH]; [apply Permutation_refl|]. cbn [filter]. destruct (f x); cbn [negb app]; [|now apply perm_skip].
  etransitivity; [|apply Permutation_middle]. now apply perm_skip.
Qed.

Lemma inv_close cb c s : inv [] s -> inv [] (uclose cb c s).
Proof. intros I. unfold uclose. apply inv_noAnswers. apply (inv_perm []); [|exact I]. rewrite app_nil_r. apply filter_split. Qed.

Lemma inv_withLooked H l s : (forall p, In (Some p) l -> In (Some p) (uLooked s)) -> inv H s -> inv H (withLooked l s).
Proof. intros S []. constructor; try assumption. intros p I. apply inv_looked0, S, I. Qed.

Lemma without_in {A} k (l : list A) x : In x (without k l) -> In x l.
Proof. unfold without. intros I. rewrite <- (firstn_skipn k l). apply in_app_or in I as [I|I]; apply in_or_app; [now left|right]. revert I. rewrite <- (firstn_skipn 1 (skipn k l)).
  intros I. apply in_or_app. right. revert I. clear. revert l. induction k as [|k IH]; intros [|y l]; try (intros I; exact I). apply (IH l). Qed.

Lemma inv_check cb p s : 0 <= fst p < uNext s -> inv [] s -> inv [] (checkFound cb p s).
Proof.
  intros R I. unfold checkFound. destruct (Z.eqb_spec (retriesOf s (fst p)) 255) as [E|E]; [exact I|]. destruct (Z.ltb_spec 0 (retriesOf s (fst p))) as [L|L]; [apply inv_close, I|].
  destruct I. assert (O : times over (fst p) (uLog s) = 0%nat).
  { destruct (times over (fst p) (uLog s)) as [|n] eqn:T; [reflexivity|]. exfalso. apply E, inv_over0. rewrite T. lia. }
  assert (AG := inv_again0 _ O). assert (A0 : times again (fst p) (uLog s) = 0%nat) by lia.
  assert (T : forall f j, times f j (uLog s ++ [UAgain (fst p)]) = (times f j (uLog s) + if f (UAgain (fst p)) && (fst p =? j)%Z then 1 else 0)%nat) by (intros f j; rewrite times_app, times_one; reflexivity).
  constructor; cbn [uNext uPend uRetries uArmed uLooked uBusy uLog]; try assumption.
  - intros j. rewrite !T. cbn [over given andb]. rewrite !Nat.add_0_r. apply inv_held0.
  - intros j. rewrite !T. cbn [over given andb]. rewrite !Nat.add_0_r. apply inv_done0.
  - intros j. rewrite T. cbn [over andb]. rewrite Nat.add_0_r. intros Q. unfold retriesOf. cbn [uRetries]. assert (j <> fst p) by (intros ->; lia). rewrite aget_set_other by assumption. apply (inv_over0 j Q).
  - intros j. rewrite !T. cbn [over again andb]. rewrite Nat.add_0_r. intros Q. unfold retriesOf. cbn [uRetries]. destruct (Z.eqb_spec (fst p) j) as [<-|N].
    + rewrite aget_set_same. change (retriesOf s (fst p) + 1 = Z.of_nat (times again (fst p) (uLog s) + 1)). rewrite AG, A0. reflexivity.
    + rewrite aget_set_other by congruence. rewrite Nat.add_0_r. apply (inv_again0 j Q).
  - intros j. rewrite T. cbn [again andb]. destruct (Z.eqb_spec (fst p) j) as [<-|N]; [lia|]. rewrite Nat.add_0_r. apply inv_most0.
  - intros j. rewrite T. cbn [sent andb]. rewrite Nat.add_0_r. apply inv_sent0.
  - intros y Q. apply in_app_or in Q as [Q|[<-|[]]]; [auto|exact R].
  - apply ordered_snoc; [assumption|]. exact O.
Qed.

Lemma removeFirst_some c l i r : removeFirst c l = (Some i, r) -> exists d, Permutation l (r ++ [(i, d)]).
Proof.
  revert i r. induction l as [|[j d] l IH]; intros i r; cbn [removeFirst]; [discriminate|]. destruct (d =? c).
  - intros E. injection E as <- <-. exists d. apply Permutation_cons_append.
  - destruct (removeFirst c l) as [o r'] eqn:Q. intros E. injection E as -> <-. destruct (IH i r' eq_refl) as (d' & P). exists d'. cbn [app]. now apply perm_skip.
Qed.

Lemma inv_gives l : forall s, inv l s -> inv [] (fold_left (fun s p => ugive (fst p) s) l s).
Proof. induction l as [|[i c] l IH]; intros s I; [exact I|]. cbn [fold_left fst]. apply IH, (inv_give l i c), I. Qed.

Definition hand (s : ucomm) : list (Z * Z) := match uBusy s with Some l => l | None => [] end.

Lemma inv_unbusy H b s : inv H (withBusy b s) -> inv H s.
Proof. intros []. constructor; assumption. Qed.

Lemma sends_busy cs : forall s, uBusy (sends cs s) = uBusy s.
Proof. induction cs as [|c cs IH]; intros s; [reflexivity|]. cbn [fold_left]. rewrite IH. reflexivity. Qed.

Lemma answers_busy cb found : forall h s, uBusy (fst (answers cb found h s)) = uBusy s.
Proof.
  induction found as [|[i c] l IH]; intros h s; [reflexivity|]. cbn [answers]. destruct h; [rewrite IH; reflexivity|]. destruct (fst (cb i)); rewrite IH; cbn [ureset withPend uBusy]; rewrite sends_busy; reflexivity.
Qed.

Lemma noAnswers_busy cb found : forall s, uBusy (noAnswers cb found s) = uBusy s.
Proof. induction found as [|[i c] l IH]; intros s; [reflexivity|]. cbn [noAnswers]. rewrite IH, sends_busy. reflexivity. Qed.

Lemma gives_busy l : forall s, uBusy (fold_left (fun s (p : Z * Z) => ugive (fst p) s) l s) = uBusy s.
Proof. induction l as [|p l IH]; intros s; [reflexivity|]. cbn [fold_left]. rewrite IH. reflexivity. Qed.

Theorem inv_step s e : inv (hand s) s -> inv (hand (ustep s e)) (ustep s e).
Proof.
  intros I. unfold ustep. destruct e as [c|hits|cb|c cb|i|k cb|c|].
  - apply (inv_send _ c) in I. exact I.
  - unfold hand in *. destruct (uBusy s) as [l|] eqn:B; [rewrite B; exact I|]. cbn [withBusy uBusy]. apply inv_busy. apply (inv_perm []); [|exact I]. rewrite app_nil_r. apply (filter_split (fun p => hits (snd p))).
  - unfold hand in *. destruct (uBusy s) as [l|] eqn:B; [|rewrite B; exact I]. rewrite answers_busy. cbn [withBusy uBusy]. apply inv_answers, inv_busy, I.
  - unfold hand in *. destruct (uBusy s) as [l|] eqn:B; [rewrite B; exact I|]. unfold uclose. rewrite noAnswers_busy. cbn [withPend uBusy]. rewrite B. apply (inv_close cb c s I).
  - destruct (find _ (uArmed s)) as [t|]; [|exact I]. destruct I. constructor; try assumption. cbn [uLooked]. intros p Q. apply in_app_or in Q as [Q|[Q|[]]]; [apply (inv_looked0 p Q)|].
    apply find_some in Q as [Q _]. apply (proj1 (Forall_forall _ _) inv_range0). apply in_or_app. now left.
  - unfold hand in *. destruct (uBusy s) as [l|] eqn:B; [rewrite B; exact I|]. destruct (nth_error (uLooked s) k) as [[p|]|] eqn:N; [| |rewrite B; exact I].
    + assert (BB : uBusy (checkFound cb p (withLooked (without k (uLooked s)) s)) = None).
      { unfold checkFound, uclose. destruct (_ =? 255); [exact B|]. destruct (0 <? _); [rewrite noAnswers_busy|]; exact B. }
      rewrite BB. apply inv_check; [apply nth_error_In in N; apply (inv_looked _ _ I _ N)|]. apply inv_withLooked; [intros q; apply without_in|exact I].
    + cbn [withLooked uBusy]. rewrite B. apply inv_withLooked; [intros q; apply without_in|exact I].
  - unfold hand in *. destruct (uBusy s) as [l|] eqn:B; [rewrite B; exact I|]. destruct (removeFirst c (uPend s)) as [[i|] r] eqn:R; [|rewrite B; exact I].
    cbn [ugive withPend uBusy]. rewrite B. apply removeFirst_some in R as (d & P). apply (inv_give [] i d). apply (inv_perm []); [|exact I]. rewrite app_nil_r. exact P.
  - unfold hand in *. destruct (uBusy s) as [l|] eqn:B; [rewrite B; exact I|]. rewrite gives_busy. cbn [withPend uBusy]. rewrite B. apply inv_gives. apply (inv_perm []); [|exact I]. rewrite app_nil_r. apply Permutation_refl.
Qed.

Theorem inv_run l : inv (hand (urun l)) (urun l).
Proof. unfold urun. assert (G : forall l s, inv (hand s) s -> inv (hand (fold_left ustep l s)) (fold_left ustep l s)). { clear l. induction l as [|e l IH]; intros s I; [exact I|]. cbn [fold_left]. apply IH, inv_step, I. } apply G. exact inv_start. Qed.
