(** C89: Timers, and how long the DHT keeps tokens and announced peers. *)
From Verif Require Import Base BaseLemmas AddrModel NodeModel TableModel ResponderModel ResponderSpec ResponderProofs ResponderProps TimerModel DhtRefreshModel.

Definition due1 (t : timer) : nat := match tmDue t with Some _ => 1 | None => 0 end.
Definition asks (e : tevt) : nat := match e with TSchedule _ _ => 1 | _ => 0 end.

(** A timer whose function returns a time is never forgotten: while it is not disabled it waits or its function is about to run. *)
Theorem C89_periodic : forall d now es, ~ In TDisable es -> (forall r n, In (TRun r n) es -> r <> 0) ->
  let t := fst (truns newTimer (TSchedule d now :: es)) in tmDue t <> None \/ (0 < tmQueued t)%nat.
Proof.
  intros d now es Nd Nr. assert (G : forall es t, ~ In TDisable es -> (forall r n, In (TRun r n) es -> r <> 0) -> tmOn t = true -> (tmDue t <> None \/ (0 < tmQueued t)%nat) -> let t' := fst (truns t es) in tmDue t' <> None \/ (0 < tmQueued t')%nat).
  { clear. induction es as [|e es IH]; intros t Nd Nr On W; [exact W|]. cbn [truns]. destruct (tstep t e) as [t1 b] eqn:E. destruct (truns t1 es) as [t2 n] eqn:R. cbn [fst]. 
    assert (K : tmOn t1 = true /\ (tmDue t1 <> None \/ (0 < tmQueued t1)%nat)).
    { destruct e; cbn [tstep] in E.
      - unfold tmSchedule in E. rewrite On in E. injection E as <- <-. cbn. split; [reflexivity|left; discriminate].
      - unfold tmExpire in E. destruct (tmDue t) as [x|] eqn:D; [|injection E as <- <-; rewrite D; auto]. destruct (x <=? now); injection E as <- <-; cbn; [split; [exact On|right; lia]|split; [exact On|left; rewrite D; discriminate]].
      - unfold tmRun in E. destruct (tmQueued t) eqn:Q; [injection E as <- <-; rewrite Q; auto|]. rewrite On in E. assert (Hr : ret <> 0) by (apply (Nr ret now); now left). destruct (Z.eqb_spec ret 0); [congruence|]. injection E as <- <-. cbn. split; [reflexivity|left; discriminate].
      - exfalso. apply Nd. now left. }
    destruct K as [K1 K2]. pose proof (IH t1 ltac:(intros Q; apply Nd; now right) ltac:(intros r n' Q; apply (Nr r n'); now right) K1 K2) as X. rewrite R in X. exact X. }
  assert (W : tmDue {| tmOn := true; tmDue := Some (now + d); tmQueued := 0 |} <> None) by (cbn; discriminate).
  pose proof (G es {| tmOn := true; tmDue := Some (now + d); tmQueued := 0 |} Nd Nr eq_refl (or_introl W)) as X. cbn [truns tstep tmSchedule newTimer tmOn tmQueued].
  destruct (truns {| tmOn := true; tmDue := Some (now + d); tmQueued := 0 |} es) as [t2 n]. exact X.
Qed.
Print Assumptions C89_periodic.

Lemma once_run es : forall t, (forall r n, In (TRun r n) es -> r = 0) -> let (t', n) := truns t es in (n + tmQueued t' + due1 t' <= tmQueued t + due1 t + fold_right (fun e s => asks e + s) 0 es)%nat.
Proof.
  induction es as [|e es IH]; intros t Nr; cbn [truns fold_right]; [lia|]. destruct (tstep t e) as [t1 b] eqn:E. specialize (IH t1 ltac:(intros r n Q; apply (Nr r n); now right)). destruct (truns t1 es) as [t2 n].
  assert (K : ((if b then 1 else 0) + tmQueued t1 + due1 t1 <= tmQueued t + due1 t + asks e)%nat).
  { destruct e; cbn [tstep asks] in *.
    - unfold tmSchedule in E. destruct (tmOn t); injection E as <- <-; unfold due1; cbn; lia.
    - unfold tmExpire in E. unfold due1. destruct (tmDue t) as [x|] eqn:D; [|injection E as <- <-; rewrite D; lia]. destruct (x <=? now); injection E as <- <-; cbn; [lia|rewrite D; lia].
    - assert (ret = 0) as -> by (apply (Nr ret now); now left). unfold tmRun in E. destruct (tmQueued t) eqn:Q; [injection E as <- <-; lia|]. destruct (tmOn t); injection E as <- <-; unfold due1; cbn; destruct (tmDue t); lia.
    - injection E as <- <-. unfold due1. cbn. lia. }
  lia.
Qed.

(** A function that returns no time is called at most as often as the timer was set. *)
Theorem C89_once : forall es, (forall r n, In (TRun r n) es -> r = 0) -> (snd (truns newTimer es) <= fold_right (fun e s => asks e + s) 0 es)%nat.
Proof. intros es Nr. pose proof (once_run es newTimer Nr) as H. destruct (truns newTimer es) as [t n]. cbn in *. lia. Qed.
Print Assumptions C89_once.

(** After [disable] the function is never called, also not by a wait that had ended, and the timer cannot be set again. *)
Theorem C89_disabled : forall t es, let (t', n) := truns t (TDisable :: es) in n = O /\ tmOn t' = false /\ tmDue t' = None.
Proof.
  intros t es. assert (G : forall es t, tmOn t = false -> tmDue t = None -> let (t', n) := truns t es in n = O /\ tmOn t' = false /\ tmDue t' = None).
  { clear. induction es as [|e es IH]; intros t On D; cbn [truns]; [auto|]. destruct (tstep t e) as [t1 b] eqn:E.
    assert (K : tmOn t1 = false /\ tmDue t1 = None /\ b = false).
    { destruct e; cbn [tstep] in E.
      - unfold tmSchedule in E. rewrite On in E. injection E as <- <-. auto.
      - unfold tmExpire in E. rewrite D in E. injection E as <- <-. auto.
      - unfold tmRun in E. destruct (tmQueued t); [injection E as <- <-; auto|]. rewrite On in E. injection E as <- <-. auto.
      - injection E as <- <-. auto. }
    destruct K as (K1 & K2 & ->). specialize (IH t1 K1 K2). destruct (truns t1 es) as [t2 n]. exact IH. }
  cbn [truns tstep]. specialize (G es (tmDisable t) eq_refl eq_refl). destruct (truns (tmDisable t) es). exact G.
Qed.
Print Assumptions C89_disabled.

(** Setting a timer anew does not take back a wait that just ended: the function is called before the time set last. *)
Theorem C89_reschedule_refuted : truns newTimer [TSchedule 10 0; TExpire 10; TSchedule 100 10; TRun 0 11] = ({| tmOn := true; tmDue := Some 110; tmQueued := 0 |}, 1%nat).
Proof. vm_compute. reflexivity. Qed.
Print Assumptions C89_reschedule_refuted.

Example C89_timer_meets : truns newTimer [TSchedule 5 0; TExpire 5; TRun 5 5; TExpire 9; TExpire 10; TRun 5 10] = ({| tmOn := true; tmDue := Some 15; tmQueued := 0 |}, 2%nat)
  /\ truns newTimer [TSchedule 5 0; TExpire 5; TRun 0 5; TExpire 90; TRun 0 90] = ({| tmOn := true; tmDue := None; tmQueued := 0 |}, 1%nat).
Proof. split; vm_compute; reflexivity. Qed.

(** ** The DHT *)

Definition isStart (e : fevt) : Prop := match e with FStart _ _ => True | _ => False end.
Definition open1 (s : dfresh) : nat := (tmQueued (fsTimer s) + due1 (fsTimer s))%nat.

(** A DHT that is switched off is not refreshed until it is switched on again, also not by a wait that had ended. *)
Theorem C89_stopped : forall maxStored s es, (forall e, In e es -> ~ isStart e) -> fsRefreshed (frun maxStored s (FStop :: es)) = fsRefreshed s.
Proof.
  intros m s es N. change (frun m s (FStop :: es)) with (frun m (setTimer s (tmDisable (fsTimer s))) es).
  assert (G : forall es s, (forall e, In e es -> ~ isStart e) -> tmOn (fsTimer s) = false -> fsRefreshed (frun m s es) = fsRefreshed s).
  { clear. induction es as [|e es IH]; intros s N O; [reflexivity|]. change (frun m s (e :: es)) with (frun m (fstep m s e) es).
    assert (K : tmOn (fsTimer (fstep m s e)) = false /\ fsRefreshed (fstep m s e) = fsRefreshed s).
    { pose proof (N e (or_introl eq_refl)) as NE. destruct e; cbn [fstep]; try (split; [exact O|reflexivity]).
      - unfold tmExpire. destruct (tmDue (fsTimer s)) as [x|]; [destruct (x <=? now)|]; split; try reflexivity; exact O.
      - unfold tmRun. destruct (tmQueued (fsTimer s)); [split; [exact O|reflexivity]|]. rewrite O. split; reflexivity.
      - split; reflexivity.
      - now destruct NE. }
    destruct K as [K1 K2]. rewrite IH; [exact K2|intros x I; apply N; now right|exact K1]. }
  exact (G es (setTimer s (tmDisable (fsTimer s))) N eq_refl).
Qed.
Print Assumptions C89_stopped.

Lemma step_open m s e : ~ isStart e -> (fsRefreshed s <= fsRefreshed (fstep m s e))%nat /\ (fsRefreshed (fstep m s e) + open1 (fstep m s e) <= fsRefreshed s + open1 s)%nat.
Proof.
  intros N. destruct e as [now|now random|h p now| |now random]; [| | | |destruct (N I)]; cbn [fstep].
  - unfold open1, tmExpire, due1. cbn. destruct (tmDue (fsTimer s)) as [x|] eqn:D; [|rewrite D; lia]. destruct (x <=? now); cbn; [lia|rewrite D; lia].
  - unfold tmRun. destruct (tmQueued (fsTimer s)) eqn:Q; [unfold open1; cbn; rewrite Q; lia|]. rewrite Z.eqb_refl. destruct (tmOn (fsTimer s)); unfold open1, due1; cbn; rewrite Q; destruct (tmDue (fsTimer s)); lia.
  - unfold open1. cbn. lia.
  - unfold open1, due1. cbn. lia.
Qed.

Lemma run_open m es : forall s, (forall e, In e es -> ~ isStart e) -> (fsRefreshed s <= fsRefreshed (frun m s es))%nat /\ (fsRefreshed (frun m s es) + open1 (frun m s es) <= fsRefreshed s + open1 s)%nat.
Proof.
  induction es as [|e es IH]; intros s N; [cbn; lia|]. destruct (step_open m s e (N e (or_introl eq_refl))) as [A B]. destruct (IH (fstep m s e) ltac:(intros x Ix; apply N; now right)) as [C D]. cbn. unfold frun in C, D. lia.
Qed.

Lemma start_open s now random : open1 (dhtStart s now random) = 1%nat.
Proof. reflexivity. Qed.

(** After the start five minutes and five seconds later the table is refreshed, ... *)
Theorem C89_refresh_partial : forall maxStored s now random n r, now + 305 <= n ->
  let s1 := dhtStart s now random in let s2 := frun maxStored s1 [FTime n; FHandler n r] in
  fsRefreshed s2 = S (fsRefreshed s1) /\ fsSecrets s2 = rotate (fsSecrets s1) r /\ fsValues s2 = refreshStoredValues (fsValues s1) n.
Proof.
  intros m s now random n r L. unfold frun, dhtStart, fstep. cbn [fold_left fsTimer setTimer tmSchedule newTimer tmOn tmQueued]. unfold tmExpire. cbn [tmDue]. destruct (Z.leb_spec (now + 305) n); [|lia]. cbn. auto.
Qed.
Print Assumptions C89_refresh_partial.

(** ... and never again: the function of the timer returns no time. However long the client runs, one refresh follows the one of the
    start. *)
Theorem C89_refresh_refuted : forall maxStored s now random es, (forall e, In e es -> ~ isStart e) ->
  let s1 := dhtStart s now random in (fsRefreshed (frun maxStored s1 es) <= S (fsRefreshed s1))%nat.
Proof. intros m s now random es N s1. destruct (run_open m es s1 N) as [_ B]. unfold s1 in *. rewrite start_open in B. lia. Qed.
Print Assumptions C89_refresh_refuted.

Lemma step_secrets m s e : ~ isStart e -> (fsRefreshed (fstep m s e) = fsRefreshed s /\ fsSecrets (fstep m s e) = fsSecrets s /\ (forall h, zlen (stored (fsValues s) h) <= zlen (stored (fsValues (fstep m s e)) h))) \/
  (fsRefreshed (fstep m s e) = S (fsRefreshed s) /\ exists r, fsSecrets (fstep m s e) = rotate (fsSecrets s) r).
Proof.
  intros N. destruct e as [now|now random|h p now| |now random]; [| | | |destruct (N I)]; cbn [fstep].
  - left. cbn. split; [reflexivity|]. split; [reflexivity|]. intros h. lia.
  - destruct (tmRun (fsTimer s) 0 now) as [t b]. destruct b; [right|left]; cbn; [split; [reflexivity|exists random; reflexivity]|split; [reflexivity|split; [reflexivity|intros h; lia]]].
  - left. cbn. split; [reflexivity|]. split; [reflexivity|]. intros k. rewrite announce_stored. destruct (list_eqb h k) eqn:E; [|lia]. apply list_eqb_spec in E. subst k.
    destruct (replaceValue _ _) as [l|] eqn:R; [assert (L : length l = length (stored (fsValues s) h)); [|unfold zlen; rewrite L; lia]|destruct (_ <? _); [rewrite zlen_app; unfold zlen; cbn; lia|lia]].
    revert l R. generalize (stored (fsValues s) h). clear. induction l as [|x l IH]; intros l' R; [discriminate|]. cbn [replaceValue] in R. destruct (addrEq _ _); [injection R as <-; reflexivity|]. destruct (replaceValue _ l) as [k|]; [|discriminate]. injection R as <-. cbn. f_equal. now apply IH.
  - left. cbn. split; [reflexivity|]. split; [reflexivity|]. intros h. lia.
Qed.

Lemma run_secrets m es : forall s, (forall e, In e es -> ~ isStart e) ->
  (fsRefreshed (frun m s es) = fsRefreshed s -> fsSecrets (frun m s es) = fsSecrets s /\ forall h, zlen (stored (fsValues s) h) <= zlen (stored (fsValues (frun m s es)) h)) /\
  (fsRefreshed (frun m s es) = S (fsRefreshed s) -> exists r, fsSecrets (frun m s es) = rotate (fsSecrets s) r).
Proof.
  induction es as [|e es IH]; intros s N; [cbn; split; [intros _; split; [reflexivity|intros h; lia]|lia]|]. change (frun m s (e :: es)) with (frun m (fstep m s e) es).
  assert (N' : forall x, In x es -> ~ isStart x) by (intros x Ix; apply N; now right). destruct (IH (fstep m s e) N') as [A B]. destruct (run_open m es (fstep m s e) N') as [C _].
  destruct (step_secrets m s e (N e (or_introl eq_refl))) as [(R & S & V)|(R & r & S)]; rewrite R in *.
  - split; [intros Q; destruct (A Q) as [A1 A2]; split; [congruence|intros h; specialize (V h); specialize (A2 h); lia]|intros Q; destruct (B Q) as [r B1]; exists r; congruence].
  - split; [intros Q; lia|]. intros Q. destruct (A Q) as [A1 _]. exists r. congruence.
Qed.

(** Every token the client hands out is accepted from that address for ever, as long as the client runs. *)
Theorem C89_token_forever_refuted : forall maxStored s now random es es', (forall e, In e (es ++ es') -> ~ isStart e) ->
  let s1 := frun maxStored (dhtStart s now random) es in let s2 := frun maxStored s1 es' in
  forall text, isValidToken (fsSecrets s2) (tokenFor (fsSecrets s1) text) text = true.
Proof.
  intros m s now random es es' N s1 s2 text. assert (N1 : forall e, In e es -> ~ isStart e) by (intros e I; apply N; apply in_or_app; now left). assert (N2 : forall e, In e es' -> ~ isStart e) by (intros e I; apply N; apply in_or_app; now right).
  destruct (run_open m es (dhtStart s now random) N1) as [A1 A2]. rewrite start_open in A2. destruct (run_open m es' s1 N2) as [B1 B2]. fold s1 in A1, A2. fold s2 in B1, B2.
  destruct (run_secrets m es' s1 N2) as [C1 C2]. fold s2 in C1, C2. assert (K : fsRefreshed s2 = fsRefreshed s1 \/ fsRefreshed s2 = S (fsRefreshed s1)) by (unfold open1 in *; lia).
  destruct K as [K|K]; [destruct (C1 K) as [-> _]; apply (C34_accepted (fsSecrets s1) text 0)|]. destruct (C2 K) as [r ->]. apply C34_accepted.
Qed.
Print Assumptions C89_token_forever_refuted.

(** Once the one refresh of the timer is over no announced peer is dropped any more, however old. *)
Theorem C89_stored_forever_refuted : forall maxStored s now random es es', (forall e, In e (es ++ es') -> ~ isStart e) ->
  let s0 := dhtStart s now random in let s1 := frun maxStored s0 es in let s2 := frun maxStored s1 es' in
  fsRefreshed s1 = S (fsRefreshed s0) -> forall h, zlen (stored (fsValues s1) h) <= zlen (stored (fsValues s2) h).
Proof.
  intros m s now random es es' N s0 s1 s2 F h. assert (N1 : forall e, In e es -> ~ isStart e) by (intros e I; apply N; apply in_or_app; now left). assert (N2 : forall e, In e es' -> ~ isStart e) by (intros e I; apply N; apply in_or_app; now right).
  destruct (run_open m es s0 N1) as [A1 A2]. fold s1 in A1, A2. unfold s0 in A2. rewrite start_open in A2. fold s0 in A2. destruct (run_open m es' s1 N2) as [B1 B2]. fold s2 in B1, B2.
  apply (proj1 (run_secrets m es' s1 N2)). fold s2. lia.
Qed.
Print Assumptions C89_stored_forever_refuted.

(** Non-vacuity: a peer announced after the refresh is still stored a week later, and the timer did run. *)
Example C89_example : let p := {| AddrModel.addrBytes := [10; 0; 0; 9] ++ repeat 0 12; AddrModel.port := 6881; AddrModel.ipv6 := false |} in
  let s0 := dhtStart {| fsTimer := newTimer; fsSecrets := startSecrets 7; fsValues := []; fsRefreshed := 0 |} 100000 8 in
  let s1 := frun 50 s0 [FTime 100305; FHandler 100305 9; FAnnounce (repeat 1 20) p 100400] in
  let s2 := frun 50 s1 [FTime 200000; FHandler 200000 10; FTime 704800; FHandler 704800 11] in
  fsRefreshed s1 = S (fsRefreshed s0) /\ fsSecrets s1 = {| secret0 := 9; secret1 := 8 |} /\ stored (fsValues s2) (repeat 1 20) = [{| vaddr := p; timestamp := 100400 |}] /\ fsSecrets s2 = fsSecrets s1.
Proof. cbv zeta. repeat split; vm_compute; reflexivity. Qed.
