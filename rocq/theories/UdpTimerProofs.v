(** Which requests have a timer, or a check of it under way. *)
From Verif Require Import Base BaseLemmas Assoc UdpCommModel UdpCommSpec UdpCommProofs.
From Coq Require Import Permutation.

Definition timed (s : ucomm) (p : Z * Z) : Prop := In p (uArmed s) \/ In (Some p) (uLooked s).

Record tm (H : list (Z * Z)) (s : ucomm) : Prop := {
  tm_all : forall p, In p (uPend s ++ H) -> timed s p;
  tm_same : forall p q, timed s p -> In q (uPend s ++ H) -> fst p = fst q -> p = q;
  tm_range : forall p, In p (uArmed s) -> fst p < uNext s }.

Lemma disarm_in i p l : In p (disarm i l) <-> In p l /\ fst p <> i.
Proof. unfold disarm. rewrite filter_In. destruct (Z.eqb_spec (fst p) i); cbn [negb]; intuition discriminate. Qed.

Lemma tm_perm H H' l s : Permutation (uPend s ++ H) (l ++ H') -> tm H s -> tm H' (withPend l s).
Proof.
  intros P []. assert (M : forall p, In p (l ++ H') -> In p (uPend s ++ H)) by (intros p; apply Permutation_in, Permutation_sym, P).
  constructor; [intros p I; apply tm_all0, M, I|intros p q T I; apply tm_same0; [exact T|apply M, I]|exact tm_range0].
Qed.

Lemma tm_log H x s : tm H s -> tm H (withLog x s).
Proof. intros []. constructor; assumption. Qed.

Lemma tm_busy H b s : tm H s -> tm H (withBusy b s).
Proof. intros []. constructor; assumption. Qed.

Lemma tm_send H c s : inv H s -> tm H s -> tm H (usend c s).
Proof.
  intros I []. assert (M : forall p, In p ((uPend s ++ [(uNext s, c)]) ++ H) -> In p (uPend s ++ H) \/ p = (uNext s, c)).
  { intros p Q. apply in_app_or in Q as [Q|Q]; [apply in_app_or in Q as [Q|[<-|[]]]; [left; apply in_or_app; now left|now right]|left; apply in_or_app; now right]. }
  assert (R := proj1 (Forall_forall _ _) (inv_range _ _ I)). cbn beta in R.
  constructor; unfold timed; cbn [usend uNext uPend uArmed uLooked] in *.
  - intros p Q. apply M in Q as [Q| ->]; [|left; apply in_elt]. destruct (tm_all0 p Q); [left; apply in_or_app; now left|now right].
  - intros p q T Q E. apply M in Q as [Q| ->].
    + destruct T as [T|T]; [|apply tm_same0; [now right|exact Q|exact E]]. apply in_app_or in T as [T|[<-|[]]]; [apply tm_same0; [now left|exact Q|exact E]|]. cbn in E. specialize (R q Q). lia.
    + cbn in E. destruct T as [T|T]; [|pose proof (inv_looked _ _ I p T); lia]. apply in_app_or in T as [T|[<-|[]]]; [pose proof (tm_range0 p T); lia|reflexivity].
  - intros p T. apply in_app_or in T as [T|[<-|[]]]; [specialize (tm_range0 p T); lia|cbn; lia].
Qed.

Lemma tm_sends cs : forall H s, inv H s -> tm H s -> tm H (sends cs s).
Proof. induction cs as [|c cs IH]; intros H s I T; [exact T|]. cbn [fold_left]. apply IH; [apply inv_send, I|apply tm_send; assumption]. Qed.

Lemma tm_disarm H i c s s' : inv ((i, c) :: H) s -> tm ((i, c) :: H) s ->
  uPend s' = uPend s -> uArmed s' = disarm i (uArmed s) -> uLooked s' = uLooked s -> uNext s' = uNext s -> tm H s'.
Proof.
  intros I [] E1 E2 E3 E4. assert (ND := inv_nodup _ _ I).
  assert (P : Permutation (map fst (uPend s ++ (i, c) :: H)) (i :: map fst (uPend s ++ H))) by (rewrite !map_app; cbn [map fst]; symmetry; apply Permutation_middle).
  apply (Permutation_NoDup P) in ND. apply NoDup_cons_iff in ND as [NI _].
  assert (M : forall p, In p (uPend s ++ H) -> In p (uPend s ++ (i, c) :: H)) by (intros p Q; apply in_app_or in Q as [Q|Q]; apply in_or_app; [now left|right; now right]).
  constructor; unfold timed; rewrite ?E1, ?E2, ?E3, ?E4.
  - intros p Q. destruct (tm_all0 p (M p Q)) as [T|T]; [|now right]. left. apply disarm_in. split; [exact T|]. intros <-. apply NI, in_map, Q.
  - intros p q T Q. apply tm_same0; [|apply M, Q]. destruct T as [T|T]; [left; apply disarm_in in T; apply T|now right].
  - intros p T. apply disarm_in in T as [T _]. apply tm_range0, T.
Qed.

Lemma tm_answers cb found : forall h s, inv found s -> tm found s -> tm [] (fst (answers cb found h s)).
Proof.
  induction found as [|[i c] l IH]; intros h s I T; [exact T|]. cbn [answers].
  assert (PB : forall s, tm ((i, c) :: l) s -> tm l (withPend (uPend s ++ [(i, c)]) s)).
  { intros s' T'. apply (tm_perm ((i, c) :: l)); [|exact T']. rewrite <- app_assoc. apply Permutation_refl. }
  assert (PI : forall s, inv ((i, c) :: l) s -> inv l (withPend (uPend s ++ [(i, c)]) s)).
  { intros s' I'. apply (inv_perm ((i, c) :: l)); [|exact I']. rewrite <- app_assoc. apply Permutation_refl. }
  destruct h; [apply IH; [apply PI, I|apply PB, T]|]. destruct (fst (cb i)) eqn:E.
  - rewrite reset_sends by (cbn [withLog uNext]; exact (proj2 (proj1 (Forall_forall _ _) (inv_range _ _ I) (i, c) (in_elt _ _ _)))).
    assert (Q : inv l (ureset i (withLog (UAnswer i true) s))) by (apply (inv_end l i c); [reflexivity|reflexivity|exact I]).
    apply IH; [apply inv_sends, Q|]. apply tm_sends; [exact Q|]. apply (tm_disarm l i c s); [exact I|exact T|reflexivity..].
  - assert (Q : inv ((i, c) :: l) (withLog (UAnswer i false) s)) by (apply (inv_log _ i); try reflexivity; [rewrite map_app; apply in_or_app; right; now left|exact I]).
    apply IH; [apply PI, inv_sends, Q|]. apply PB, tm_sends; [exact Q|apply tm_log, T].
Qed.

Lemma tm_noAnswers cb found : forall s, inv found s -> tm found s -> tm [] (noAnswers cb found s).
Proof.
  induction found as [|[i c] l IH]; intros s I T; [exact T|]. cbn [noAnswers]. change (withLog (UNone i) (ureset i s)) with (ureset i (withLog (UNone i) s)).
  assert (Q : inv l (ureset i (withLog (UNone i) s))) by (apply (inv_end l i c); [reflexivity|reflexivity|exact I]).
  apply IH; [apply inv_sends, Q|]. apply tm_sends; [exact Q|]. apply (tm_disarm l i c s); [exact I|exact T|reflexivity..].
Qed.

Lemma tm_gives l : forall s, inv l s -> tm l s -> tm [] (fold_left (fun s (p : Z * Z) => ugive (fst p) s) l s).
Proof.
  induction l as [|[i c] l IH]; intros s I T; [exact T|]. cbn [fold_left fst]. apply IH; [apply (inv_give l i c), I|]. apply (tm_disarm l i c s); [exact I|exact T|reflexivity..].
Qed.

Lemma nth_without {A} k (l : list A) x y : nth_error l k = Some x -> In y l -> y = x \/ In y (without k l).
Proof.
  intros N I. apply nth_error_split in N as (a & b & -> & <-). unfold without. rewrite firstn_app, Nat.sub_diag, firstn_all. cbn [firstn]. rewrite app_nil_r.
  replace (skipn (S (length a)) (a ++ x :: b)) with b; [|clear; induction a as [|z a IH]; [reflexivity|exact IH]].
  apply in_app_or in I as [I|[<-|I]]; [right; apply in_or_app; now left|now left|right; apply in_or_app; now right].
Qed.

Lemma tm_unlook k o s : nth_error (uLooked s) k = Some o -> (forall q, o = Some q -> ~ In q (uPend s)) -> tm [] s -> tm [] (withLooked (without k (uLooked s)) s).
Proof.
  intros N NI []. constructor; unfold timed; cbn [withLooked uPend uArmed uLooked uNext].
  - intros p Q. destruct (tm_all0 p Q) as [A|A]; [now left|]. right. destruct (nth_without k _ _ _ N A) as [A2|A2]; [|exact A2]. exfalso. rewrite app_nil_r in Q. apply (NI p (eq_sym A2) Q).
  - intros p q A. apply tm_same0. destruct A as [A|A]; [now left|right; eapply without_in; exact A].
  - exact tm_range0.
Qed.

Lemma sends_looked cs L : forall s, sends cs (withLooked L s) = withLooked L (sends cs s).
Proof. induction cs as [|c cs IH]; intros s; [reflexivity|]. cbn [fold_left]. rewrite <- IH. reflexivity. Qed.

Lemma close_looked cb c L s : uclose cb c (withLooked L s) = withLooked L (uclose cb c s).
Proof.
  unfold uclose. cbn [withLooked uPend]. change (withPend ?l (withLooked L s)) with (withLooked L (withPend l s)). generalize (filter (fun p => snd p =? c) (uPend s)) as found.
  generalize (withPend (filter (fun p => negb (snd p =? c)) (uPend s)) s) as t. intros t found. revert t. induction found as [|[i d] l IH]; intros t; [reflexivity|]. cbn [noAnswers]. rewrite <- IH, <- sends_looked. reflexivity.
Qed.

Lemma noAnswers_looked cb found : forall s, uLooked (noAnswers cb found s) = uLooked s.
Proof.
  assert (S : forall cs s, uLooked (sends cs s) = uLooked s) by (induction cs as [|c cs IH]; intros s; [reflexivity|]; cbn [fold_left]; rewrite IH; reflexivity).
  induction found as [|[i d] l IH]; intros s; [reflexivity|]. cbn [noAnswers]. rewrite IH, S. reflexivity.
Qed.

Lemma close_same_looked cb c s : uLooked (uclose cb c s) = uLooked s.
Proof. unfold uclose. rewrite noAnswers_looked. reflexivity. Qed.

Lemma sends_pend cs : forall s q, In q (uPend (sends cs s)) -> In q (uPend s) \/ uNext s <= fst q.
Proof.
  induction cs as [|c cs IH]; intros s q H; [now left|]. cbn [fold_left] in H. apply IH in H as [H|H]; cbn [usend uPend uNext] in H; [|right; lia].
  apply in_app_or in H as [H|[<-|[]]]; [now left|right; cbn; lia].
Qed.

Lemma sends_next cs : forall s, uNext s <= uNext (sends cs s).
Proof. induction cs as [|c cs IH]; intros s; [apply Z.le_refl|]. cbn [fold_left]. specialize (IH (usend c s)). cbn [usend uNext] in IH. lia. Qed.

Lemma noAnswers_pend cb found : forall s q, In q (uPend (noAnswers cb found s)) -> In q (uPend s) \/ uNext s <= fst q.
Proof.
  induction found as [|[i d] l IH]; intros s q H; [now left|]. cbn [noAnswers] in H. apply IH in H as [H|H].
  - apply sends_pend in H as [H|H]; [now left|now right].
  - right. pose proof (sends_next (snd (cb i)) (withLog (UNone i) (ureset i s))) as Q. cbn [withLog ureset uNext] in Q. lia.
Qed.

Lemma tm_close cb c s : inv [] s -> tm [] s -> tm [] (uclose cb c s).
Proof.
  intros I T. assert (P : Permutation (uPend s ++ []) (filter (fun p => negb (snd p =? c)) (uPend s) ++ filter (fun p => snd p =? c) (uPend s))) by (rewrite app_nil_r; apply filter_split).
  apply tm_noAnswers; [apply (inv_perm []); assumption|apply (tm_perm []); assumption].
Qed.

(** no other request uses the client of one whose timer expires, and no answers are being handled then *)
Fixpoint calm (s : ucomm) (l : list uev) : Prop :=
  match l with
  | [] => True
  | e :: r =>
    match e with
    | EFire i => uBusy s = None /\ forall p q, In p (uPend s) -> In q (uPend s) -> fst p = i -> snd q = snd p -> q = p
    | _ => True
    end /\ calm (ustep s e) r
  end.

Lemma tm_step s e : calm s [e] -> inv (hand s) s -> tm (hand s) s -> tm (hand (ustep s e)) (ustep s e).
Proof.
  intros [C _] I T. unfold ustep. destruct e as [c|hits|cb|c cb|i|k cb|c|].
  - exact (tm_send _ c s I T).
  - unfold hand in *. destruct (uBusy s) as [l|] eqn:B; [rewrite B; exact T|]. cbn [withBusy uBusy]. apply tm_busy. apply (tm_perm []); [|exact T]. rewrite app_nil_r. apply (filter_split (fun p => hits (snd p))).
  - unfold hand in *. destruct (uBusy s) as [l|] eqn:B; [|rewrite B; exact T]. rewrite answers_busy. cbn [withBusy uBusy]. apply tm_answers; [apply inv_busy, I|apply tm_busy, T].
  - unfold hand in *. destruct (uBusy s) as [l|] eqn:B; [rewrite B; exact T|]. unfold uclose. rewrite noAnswers_busy. cbn [withPend uBusy]. rewrite B.
    apply tm_close; assumption.
  - destruct C as [B C]. destruct (find _ (uArmed s)) as [t|] eqn:F; [|exact T]. unfold hand in *. cbn [uBusy]. rewrite B in *. apply find_some in F as [F E]. apply Z.eqb_eq in E.
    destruct T as [TA TS TR]. constructor; unfold timed; cbn [uPend uArmed uLooked uNext].
    + intros p Q. destruct (TA p Q) as [A|A]; [|right; apply in_or_app; now left]. destruct (Z.eq_dec (fst p) i) as [EP|NP]; [|left; apply disarm_in; split; assumption]. right. apply in_or_app. right. left.
      assert (t = p) by (apply TS; [now left|exact Q|congruence]). subst t. rewrite app_nil_r in Q. unfold firstOf.
      destruct (find (fun q => snd q =? snd p) (uPend s)) as [q|] eqn:FQ.
      * apply find_some in FQ as [IQ EQ]. apply Z.eqb_eq in EQ. rewrite (C p q Q IQ EP EQ). reflexivity.
      * pose proof (find_none _ _ FQ p Q) as NN. cbn beta in NN. rewrite Z.eqb_refl in NN. discriminate.
    + intros p q A Q EF. destruct A as [A|A]; [apply disarm_in in A as [A _]; apply TS; [now left|exact Q|exact EF]|]. apply in_app_or in A as [A|[A|[]]]; [apply TS; [now right|exact Q|exact EF]|].
      apply find_some in A as [A _]. apply TS; [apply TA; apply in_or_app; now left|exact Q|exact EF].
    + intros p A. apply disarm_in in A as [A _]. apply TR, A.
  - unfold hand in *. destruct (uBusy s) as [l|] eqn:B; [rewrite B; exact T|]. destruct (nth_error (uLooked s) k) as [[p|]|] eqn:N; [| |rewrite B; exact T].
    + assert (BB : uBusy (checkFound cb p (withLooked (without k (uLooked s)) s)) = None).
      { unfold checkFound, uclose. destruct (_ =? 255); [exact B|]. destruct (0 <? _); [rewrite noAnswers_busy|]; exact B. }
      rewrite BB. assert (I1 : inv [] (withLooked (without k (uLooked s)) s)) by (apply inv_withLooked; [intros q; apply without_in|exact I]).
      unfold checkFound. change (retriesOf (withLooked (without k (uLooked s)) s) (fst p)) with (retriesOf s (fst p)). destruct (Z.eqb_spec (retriesOf s (fst p)) 255) as [E|E].
      * apply (tm_unlook _ (Some p)); [exact N| |exact T]. intros q Q H. injection Q as ->. destruct (inv_held _ _ I (fst q) ltac:(rewrite app_nil_r; apply (in_map fst _ _ H))) as [O _].
        pose proof (inv_again _ _ I _ O) as AG. pose proof (inv_most _ _ I (fst q)). lia.
      * destruct (0 <? retriesOf s (fst p)).
        -- rewrite close_looked. rewrite <- (close_same_looked cb (snd p) s) at 1. apply (tm_unlook _ (Some p)); [rewrite close_same_looked; exact N| |apply tm_close; assumption].
           intros q Q H. injection Q as ->. apply noAnswers_pend in H as [H|H]; cbn [withPend uPend uNext] in H.
           ++ apply filter_In in H as [_ H]. rewrite Z.eqb_refl in H. discriminate.
           ++ pose proof (inv_looked _ _ I q (nth_error_In _ _ N)). lia.
        -- destruct T as [TA TS TR]. assert (TP : timed s p) by (right; eapply nth_error_In; exact N). constructor; unfold timed; cbn [uPend uArmed uLooked uNext withLooked].
           ++ intros q Q. destruct (Z.eq_dec (fst q) (fst p)) as [EQ|NQ].
              ** assert (p = q) by (apply TS; [exact TP|exact Q|congruence]). subst q. left. apply in_or_app. right. rewrite app_nil_r in Q.
                 replace (existsb (fun q => fst q =? fst p) (uPend s)) with true; [now left|]. symmetry. apply existsb_exists. exists p. split; [exact Q|apply Z.eqb_refl].
              ** destruct (TA q Q) as [A|A]; [left; apply in_or_app; left; apply disarm_in; split; assumption|]. right. destruct (nth_without k _ _ _ N A) as [A2|A2]; [injection A2 as ->; contradiction|exact A2].
           ++ intros q r A Q. apply TS; [|exact Q]. destruct A as [A|A]; [|right; eapply without_in; exact A]. apply in_app_or in A as [A|A]; [apply disarm_in in A as [A _]; now left|].
              destruct (existsb _ (uPend s)); [|destruct A]. destruct A as [<-|[]]. exact TP.
           ++ intros q A. apply in_app_or in A as [A|A]; [apply disarm_in in A as [A _]; apply TR, A|]. destruct (existsb _ (uPend s)); [|destruct A]. destruct A as [<-|[]]. apply (inv_looked _ _ I p (nth_error_In _ _ N)).
    + cbn [withLooked uBusy]. rewrite B. apply (tm_unlook _ None); [exact N|discriminate|exact T].
  - unfold hand in *. destruct (uBusy s) as [l|] eqn:B; [rewrite B; exact T|]. destruct (removeFirst c (uPend s)) as [[i|] r] eqn:R; [|rewrite B; exact T].
    cbn [ugive withPend uBusy]. rewrite B. apply removeFirst_some in R as (d & P). assert (P' : Permutation (uPend s ++ []) (r ++ [(i, d)])) by (rewrite app_nil_r; exact P).
    apply (tm_disarm [] i d (withPend r s)); [apply (inv_perm []); assumption|apply (tm_perm []); assumption|reflexivity..].
  - unfold hand in *. destruct (uBusy s) as [l|] eqn:B; [rewrite B; exact T|]. rewrite gives_busy. cbn [withPend uBusy]. rewrite B.
    assert (P' : Permutation (uPend s ++ []) ([] ++ uPend s)) by (rewrite app_nil_r; apply Permutation_refl).
    apply tm_gives; [apply (inv_perm []); assumption|apply (tm_perm []); assumption].
Qed.

Lemma tm_calm l : forall s, calm s l -> inv (hand s) s -> tm (hand s) s -> tm (hand (fold_left ustep l s)) (fold_left ustep l s).
Proof.
  induction l as [|e l IH]; intros s C I T; [exact T|]. destruct C as [C1 C2]. cbn [fold_left]. apply IH; [exact C2|apply inv_step, I|]. apply tm_step; [split; [exact C1|exact Logic.I]|exact I|exact T].
Qed.

Lemma tm_start : tm [] startComm.
Proof. constructor; cbn; intros; contradiction. Qed.
