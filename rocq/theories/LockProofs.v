(** Threads that lock in one order never wait for each other. *)
From Verif Require Import Base BaseLemmas LockModel.

(** every lock taken inside has a higher rank than those held *)
Fixpoint fits (rank : mtx -> Z) (low : Z) (p : prog) : Prop :=
  match p with PEnd => True | PSeq a b => fits rank low a /\ fits rank low b | PHold m a => low < rank m /\ fits rank (rank m) a end.

(** what is left to do of a thread that locks in order, with what it holds *)
Fixpoint good (rank : mtx -> Z) (held : list mtx) (r : list op) : Prop :=
  match r with
  | [] => held = []
  | Acq m :: r => Forall (fun h => rank h < rank m) held /\ good rank (m :: held) r
  | Rel m :: r => match held with h :: held' => h = m /\ ~ In m held' /\ good rank held' r | [] => False end
  end.

Section Ranked.
Variable rank : mtx -> Z.

Lemma fits_good p : forall low held r, fits rank low p -> Forall (fun h => rank h <= low) held -> good rank held r -> good rank held (ops p ++ r).
Proof.
  induction p as [|a IHa b IHb|m a IHa]; intros low held r F L G; cbn [ops fits] in *.
  - exact G.
  - rewrite <- app_assoc. destruct F as [Fa Fb]. apply (IHa low); [exact Fa|exact L|]. apply (IHb low); assumption.
  - destruct F as [Fm Fa]. cbn [app good]. split; [eapply Forall_impl; [|exact L]; cbn; intros h H; lia|].
    rewrite <- app_assoc. apply (IHa (rank m)); [exact Fa| |].
    + apply Forall_cons; [lia|]. eapply Forall_impl; [|exact L]. cbn. intros h H. lia.
    + cbn [app good]. split; [reflexivity|]. split; [|exact G]. intros I. rewrite Forall_forall in L. specialize (L m I). lia.
Qed.

(** all mutexes held, by whom does not matter *)
Definition heldBy (s : list thr) : list mtx := flat_map tHeld s.

Record sound (s : list thr) : Prop := {
  so_good : Forall (fun t => good rank (tHeld t) (tRest t)) s;
  so_once : NoDup (heldBy s) }.

Lemma taken_spec m s : taken m s = true <-> In m (heldBy s).
Proof.
  unfold taken, heldBy. rewrite existsb_exists, in_flat_map. split.
  - intros (t & I & H). exists t. split; [exact I|]. destruct (in_dec mtx_eq_dec m (tHeld t)); [assumption|discriminate].
  - intros (t & I & H). exists t. split; [exact I|]. destruct (in_dec mtx_eq_dec m (tHeld t)); [reflexivity|contradiction].
Qed.

Lemma heldBy_app a b : heldBy (a ++ b) = heldBy a ++ heldBy b.
Proof. apply flat_map_app. Qed.

Lemma split_nth (s : list thr) i t : nth_error s i = Some t -> s = firstn i s ++ t :: skipn (S i) s.
Proof. revert i. induction s as [|x s IH]; intros [|i] H; [discriminate..|injection H as ->; reflexivity|]. cbn [nth_error] in H. cbn [firstn skipn app]. f_equal. exact (IH i H). Qed.

Lemma sound_step s i s' : sound s -> lstep s i = Some s' -> sound s'.
Proof.
  intros [G N] H. unfold lstep in H. destruct (nth_error s i) as [t|] eqn:E; [|discriminate]. pose proof (split_nth s i t E) as S.
  assert (GA : Forall (fun t => good rank (tHeld t) (tRest t)) (firstn i s) /\ good rank (tHeld t) (tRest t) /\ Forall (fun t => good rank (tHeld t) (tRest t)) (skipn (Datatypes.S i) s)).
  { rewrite S in G. apply Forall_app in G as [G1 G2]. apply Forall_cons_iff in G2 as [G2 G3]. auto. }
  destruct GA as (G1 & Gt & G2). rewrite S in N. rewrite heldBy_app in N. change (heldBy (t :: skipn (Datatypes.S i) s)) with (tHeld t ++ heldBy (skipn (Datatypes.S i) s)) in N.
  destruct (tRest t) as [|[m|m] r]; [discriminate| |].
  - destruct (taken m s) eqn:T; [discriminate|]. injection H as <-. cbn [good] in Gt. destruct Gt as [Gm Gt]. split.
    + apply Forall_app. split; [exact G1|]. apply Forall_cons; [exact Gt|exact G2].
    + rewrite heldBy_app. change (heldBy ({| tHeld := m :: tHeld t; tRest := r |} :: skipn (Datatypes.S i) s)) with ((m :: tHeld t) ++ heldBy (skipn (Datatypes.S i) s)).
      cbn [app]. apply NoDup_Add with (a := m) (l := heldBy (firstn i s) ++ tHeld t ++ heldBy (skipn (Datatypes.S i) s)); [apply Add_app|]. split; [exact N|].
      intros Q. enough (taken m s = true) by congruence. apply taken_spec. rewrite S, heldBy_app. exact Q.
  - injection H as <-. cbn [good] in Gt. destruct (tHeld t) as [|h held] eqn:Eh; [contradiction|]. destruct Gt as (-> & Nm & Gt).
    assert (R : remove mtx_eq_dec m (m :: held) = held) by (cbn [remove]; destruct (mtx_eq_dec m m) as [_|Q]; [apply notin_remove; exact Nm|contradiction Q; reflexivity]). rewrite R. split.
    + apply Forall_app. split; [exact G1|]. apply Forall_cons; [exact Gt|exact G2].
    + rewrite heldBy_app. change (heldBy ({| tHeld := held; tRest := r |} :: skipn (Datatypes.S i) s)) with (held ++ heldBy (skipn (Datatypes.S i) s)).
      cbn [app] in N. apply NoDup_remove_1 in N. exact N.
Qed.

Lemma sound_run order : forall s, sound s -> sound (lrun s order).
Proof. induction order as [|i o IH]; intros s S; [exact S|]. cbn [lrun]. apply IH. destruct (lstep s i) eqn:E; [exact (sound_step s i _ S E)|exact S]. Qed.

Lemma sound_threads low l : Forall (fits rank low) l -> sound (threads l).
Proof.
  intros F. split.
  - unfold threads. rewrite Forall_map. eapply Forall_impl; [|exact F]. cbn. intros p Fp. rewrite <- (app_nil_r (ops p)). apply (fits_good p low); [exact Fp|constructor|reflexivity].
  - unfold heldBy, threads. clear F. induction l as [|p l IH]; [constructor|]. cbn [map flat_map tHeld app]. exact IH.
Qed.

Lemma rest_dec (x : thr) : {tRest x <> []} + {~ tRest x <> []}.
Proof. destruct (tRest x); [right; intros Q; apply Q; reflexivity|left; discriminate]. Qed.

Lemma done_dec (x : thr) : {tRest x = []} + {tRest x <> []}.
Proof. destruct (tRest x); [left; reflexivity|right; discriminate]. Qed.

Lemma waits_dec (x : thr) : {match tRest x with Rel _ :: _ => False | _ => True end} + {~ match tRest x with Rel _ :: _ => False | _ => True end}.
Proof. destruct (tRest x) as [|[?|?] ?]; [left; exact I|left; exact I|right; intros []]. Qed.

(** the highest lock somebody waits for *)
Lemma highest (s : list thr) : Exists (fun t => tRest t <> []) s -> Forall (fun t => match tRest t with Rel _ :: _ => False | _ => True end) s ->
  exists i t m r, nth_error s i = Some t /\ tRest t = Acq m :: r /\ Forall (fun t' => match tRest t' with Acq m' :: _ => rank m' <= rank m | _ => True end) s.
Proof.
  induction s as [|t s IH]; intros E F; [inversion E|]. apply Forall_cons_iff in F as [Ft F].
  destruct (Exists_dec (fun t => tRest t <> []) s rest_dec) as [X|X].
  - destruct (IH X F) as (i & u & m & r & Ei & Eu & Fu). destruct (tRest t) as [|[m'|m'] r'] eqn:Et; [| |contradiction].
    + exists (S i), u, m, r. split; [exact Ei|]. split; [exact Eu|]. apply Forall_cons; [rewrite Et; exact I|exact Fu].
    + destruct (Z.leb_spec (rank m') (rank m)) as [L|L].
      * exists (S i), u, m, r. split; [exact Ei|]. split; [exact Eu|]. apply Forall_cons; [rewrite Et; exact L|exact Fu].
      * exists 0%nat, t, m', r'. split; [reflexivity|]. split; [exact Et|]. apply Forall_cons; [rewrite Et; lia|]. eapply Forall_impl; [|exact Fu]. cbn. intros v Hv. destruct (tRest v) as [|[k|k] ?]; [exact I|lia|exact I].
  - assert (A : Forall (fun u => tRest u = []) s) by (apply Forall_forall; intros u Hu; destruct (tRest u) as [|o l] eqn:Q; [reflexivity|]; exfalso; apply X, Exists_exists; exists u; split; [exact Hu|rewrite Q; discriminate]).
    inversion E as [? ? H|? ? H]; [|contradiction]. subst. destruct (tRest t) as [|[m|m] r] eqn:Et; [contradiction H; reflexivity| |contradiction].
    exists 0%nat, t, m, r. split; [reflexivity|]. split; [exact Et|]. apply Forall_cons; [rewrite Et; lia|]. eapply Forall_impl; [|exact A]. cbn. intros v Hv. rewrite Hv. exact I.
Qed.

Lemma good_holds held r : good rank held r -> held <> [] -> r <> [].
Proof. intros G H ->. apply H, G. Qed.

Theorem sound_moves s : sound s -> Forall (fun t => tRest t = []) s \/ exists i s', lstep s i = Some s'.
Proof.
  intros [G N]. destruct (Forall_dec (fun t => tRest t = []) done_dec s) as [D|D]; [left; exact D|right].
  assert (E : Exists (fun t => tRest t <> []) s) by (apply neg_Forall_Exists_neg in D; [exact D|exact done_dec]).
  destruct (Forall_dec (fun t => match tRest t with Rel _ :: _ => False | _ => True end) waits_dec s) as [F|F].
  - destruct (highest s E F) as (i & t & m & r & Ei & Et & H). destruct (taken m s) eqn:T.
    + exfalso. apply taken_spec in T. apply in_flat_map in T as (u & Iu & Hu). rewrite Forall_forall in G, F, H. pose proof (G u Iu) as Gu. pose proof (F u Iu) as Fu. pose proof (H u Iu) as Hr.
      destruct (tRest u) as [|[m'|m'] r']; [cbn in Gu; rewrite Gu in Hu; destruct Hu| |contradiction]. cbn in Gu. destruct Gu as [Gu _]. rewrite Forall_forall in Gu. specialize (Gu m Hu). lia.
    + exists i. eexists. unfold lstep. rewrite Ei, Et, T. reflexivity.
  - assert (X : Exists (fun t => ~ match tRest t with Rel _ :: _ => False | _ => True end) s) by (apply neg_Forall_Exists_neg in F; [exact F|exact waits_dec]).
    apply Exists_exists in X as (t & It & Ht). destruct (tRest t) as [|[m|m] r] eqn:Et; [contradiction Ht; exact I|contradiction Ht; exact I|]. apply In_nth_error in It as [i Ei].
    exists i. eexists. unfold lstep. rewrite Ei, Et. reflexivity.
Qed.
End Ranked.

(** * Every step brings the end nearer *)

Definition left (s : list thr) : nat := list_sum (map (fun t => length (tRest t)) s).

Lemma step_left s i s' : lstep s i = Some s' -> left s = S (left s').
Proof.
  intros H. unfold lstep in H. destruct (nth_error s i) as [t|] eqn:E; [|discriminate]. pose proof (split_nth s i t E) as S.
  destruct (tRest t) as [|[m|m] r] eqn:Et; [discriminate| |]; [destruct (taken m s); [discriminate|]|]; injection H as <-; unfold left; rewrite S at 1; rewrite !map_app, !list_sum_app; cbn [map]; cbn; rewrite Et; cbn [length]; lia.
Qed.

Lemma moves_finish rank n : forall s, left s = n -> sound rank s -> exists order, Forall (fun t => tRest t = []) (lrun s order).
Proof.
  induction n as [|n IH]; intros s L S.
  - exists []. cbn. destruct (sound_moves rank s S) as [D|(i & s' & E)]; [exact D|]. apply step_left in E. lia.
  - destruct (sound_moves rank s S) as [D|(i & s' & E)]; [exists []; exact D|]. pose proof (step_left _ _ _ E). destruct (IH s' ltac:(lia) (sound_step rank s i s' S E)) as [o Ho]. exists (i :: o). cbn [lrun]. rewrite E. exact Ho.
Qed.

(** * Building programs *)

Lemma fits_low rank p : forall a b, fits rank b p -> a <= b -> fits rank a p.
Proof. induction p as [|p IHp q IHq|m p IH]; intros a b F L; cbn in *; [exact I|destruct F; split; eauto|destruct F as [F1 F2]; split; [lia|exact F2]]. Qed.

Lemma fits_seqs rank low l : Forall (fits rank low) l -> fits rank low (seqs l).
Proof. induction 1 as [|p l H F IH]; cbn; [exact I|split; assumption]. Qed.

Lemma fits_map {A} rank low (f : A -> prog) l : (forall x, In x l -> fits rank low (f x)) -> fits rank low (seqs (map f l)).
Proof. intros H. apply fits_seqs. apply Forall_forall. intros p I. apply in_map_iff in I as (x & <- & I). exact (H x I). Qed.

Lemma fits_rep rank low n p : fits rank low p -> fits rank low (rep n p).
Proof. intros H. apply fits_seqs. apply Forall_forall. intros q I. apply repeat_spec in I. subst. exact H. Qed.

Lemma fits_when rank low b p : (b = true -> fits rank low p) -> fits rank low (when b p).
Proof. destruct b; intros H; [exact (H eq_refl)|exact I]. Qed.

(** * Threads that wait for each other *)

Lemma lstep_other s i s' j : lstep s i = Some s' -> i <> j -> nth_error s' j = nth_error s j.
Proof.
  intros H N. unfold lstep in H. destruct (nth_error s i) as [t|] eqn:E; [|discriminate].
  assert (K : forall x, nth_error (firstn i s ++ x :: skipn (S i) s) j = nth_error s j).
  { intros x. rewrite (split_nth s i t E) at 3. pose proof (proj1 (nth_error_Some s i) ltac:(rewrite E; discriminate)) as L.
    assert (F : length (firstn i s) = i) by (rewrite firstn_length; lia). destruct (Nat.lt_ge_cases j i) as [Q|Q].
    - rewrite !nth_error_app1 by lia. reflexivity.
    - rewrite !nth_error_app2 by lia. rewrite F. destruct (j - i)%nat as [|d] eqn:D; [lia|]. reflexivity. }
  destruct (tRest t) as [|[m|m] r]; [discriminate| |]; [destruct (taken m s); [discriminate|]|]; injection H as <-; apply K.
Qed.

Lemma lstep_waits s i t m r j u : nth_error s i = Some t -> tRest t = Acq m :: r -> nth_error s j = Some u -> In m (tHeld u) -> lstep s i = None.
Proof.
  intros E R J I. unfold lstep. rewrite E, R. replace (taken m s) with true; [reflexivity|]. symmetry. apply taken_spec. apply in_flat_map. exists u. split; [apply nth_error_In with j; exact J|exact I].
Qed.

Lemma crossed_forever s i j ti tj a b ra rb : i <> j -> nth_error s i = Some ti -> nth_error s j = Some tj -> tRest ti = Acq b :: ra -> tRest tj = Acq a :: rb ->
  In a (tHeld ti) -> In b (tHeld tj) -> forall order, nth_error (lrun s order) i = Some ti /\ nth_error (lrun s order) j = Some tj.
Proof.
  intros N Ei Ej Ri Rj Ha Hb order. revert s Ei Ej. induction order as [|k o IH]; intros s Ei Ej; [split; assumption|]. cbn [lrun].
  destruct (lstep s k) as [s'|] eqn:E; [|apply IH; assumption].
  destruct (Nat.eq_dec k i) as [->|Ki]; [rewrite (lstep_waits s i ti b ra j tj Ei Ri Ej Hb) in E; discriminate|].
  destruct (Nat.eq_dec k j) as [->|Kj]; [rewrite (lstep_waits s j tj a rb i ti Ej Rj Ei Ha) in E; discriminate|].
  apply IH; rewrite (lstep_other s k s' _ E); assumption.
Qed.

Lemma self_forever s i t m r : nth_error s i = Some t -> tRest t = Acq m :: r -> In m (tHeld t) -> forall order, nth_error (lrun s order) i = Some t.
Proof.
  intros Ei Ri Hm order. revert s Ei. induction order as [|k o IH]; intros s Ei; [assumption|]. cbn [lrun].
  destruct (lstep s k) as [s'|] eqn:E; [|apply IH; assumption].
  destruct (Nat.eq_dec k i) as [->|Ki]; [rewrite (lstep_waits s i t m r i t Ei Ri Ei Hm) in E; discriminate|].
  apply IH; rewrite (lstep_other s k s' _ E); assumption.
Qed.

(** threads that have not begun do not disturb the others *)
Lemma taken_idle m s l : taken m (s ++ threads l) = taken m s.
Proof.
  unfold taken. rewrite existsb_app. replace (existsb _ (threads l)) with false; [apply Bool.orb_false_r|]. symmetry. apply Bool.not_true_iff_false. intros H. apply existsb_exists in H as (t & I & H).
  apply in_map_iff in I as (p & <- & _). cbn in H. discriminate.
Qed.

Lemma lrun_idle l order : forall s, Forall (fun i => (i < length s)%nat) order -> lrun (s ++ threads l) order = lrun s order ++ threads l.
Proof.
  induction order as [|i o IH]; intros s F; [reflexivity|]. apply Forall_cons_iff in F as [L F]. cbn [lrun].
  assert (K : lstep (s ++ threads l) i = match lstep s i with Some s' => Some (s' ++ threads l) | None => None end).
  { unfold lstep. rewrite nth_error_app1 by exact L. destruct (nth_error s i) as [t|] eqn:E; [|reflexivity].
    assert (X : forall x, firstn i (s ++ threads l) ++ x :: skipn (S i) (s ++ threads l) = (firstn i s ++ x :: skipn (S i) s) ++ threads l).
    { intros x. rewrite firstn_app, skipn_app. replace (i - length s)%nat with 0%nat by lia. replace (S i - length s)%nat with 0%nat by lia. cbn [firstn skipn]. rewrite app_nil_r, <- app_assoc. reflexivity. }
    destruct (tRest t) as [|[m|m] r]; [reflexivity| |]; [rewrite taken_idle; destruct (taken m s); [reflexivity|]|]; rewrite X; reflexivity. }
  rewrite K. destruct (lstep s i) as [s'|] eqn:E; [|apply IH; exact F].
  apply IH. replace (length s') with (length s); [exact F|]. unfold lstep in E. destruct (nth_error s i) as [t|] eqn:Et; [|discriminate].
  assert (X : forall x, length s = length (firstn i s ++ x :: skipn (S i) s)). { intros x. rewrite app_length. cbn [length]. rewrite firstn_length, skipn_length. lia. }
  destruct (tRest t) as [|[m|m] r]; [discriminate| |]; [destruct (taken m s); [discriminate|]|]; injection E as <-; apply X.
Qed.

Lemma lrun_app a : forall s b, lrun s (a ++ b) = lrun (lrun s a) b.
Proof. induction a as [|i a IH]; intros s b; [reflexivity|]. cbn [app lrun]. apply IH. Qed.
