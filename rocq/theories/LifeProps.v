(** C47: a running torrent is started again after a restart, a stopped one is not. *)
From Verif Require Import Base LifeModel.

(** The metadata is there. *)
Definition complete (s : tor) : Prop := match tUtm s with None => True | Some u => uFinished u = true end.

(** A torrent added from a file or a link, after anything that can happen. *)
Definition reach (s : tor) : Prop := exists named, (exists l, lrun (newFile named) l = Some s) \/ (exists l, lrun (newMagnet named) l = Some s).

(** ** What holds always *)
Definition invb (s : tor) : bool :=
  let comp := match tUtm s with None => true | Some u => uFinished u end in
  implb (comp && tStarted s) (tChanged s) &&
  match tUtm s with Some u => implb (uFinished u) (tFile s && tLoaded s && negb (uActive u)) | None => true end &&
  implb (match tSaved s with Some true => true | _ => false end) (tChanged s || (negb (tStarted s) && match tUtm s with None => true | _ => false end)).

(** The model has finitely many states: every one is looked at. *)
Definition bools : list bool := [true; false].
Definition outs : list fsOut := [FsFail; FsOk; FsCheck].
Definition states : list tor :=
  flat_map (fun st => flat_map (fun ch => flat_map (fun er => flat_map (fun lo => flat_map (fun ut => flat_map (fun ck => flat_map (fun na => flat_map (fun sa => map (fun fi =>
    {| tStarted := st; tChanged := ch; tErr := er; tLoaded := lo; tUtm := ut; tChecking := ck; tNamed := na; tSaved := sa; tFile := fi |}) bools)
    [None; Some true; Some false]) bools) bools) (None :: flat_map (fun a => map (fun f => Some {| uActive := a; uFinished := f |}) bools) bools)) bools) bools) bools) bools.
Definition events : list lop :=
  map LStart outs ++ [LStop; LError] ++ map LMetadata outs ++ [LCheck] ++ flat_map (fun b => map (LChecked b) outs) bools ++ [LSelect] ++ map LRestart outs.

Lemma in_bools b : In b bools.
Proof. destruct b; cbn; auto. Qed.
Lemma in_outs o : In o outs.
Proof. destruct o; cbn; auto. Qed.
Lemma in_states s : In s states.
Proof.
  destruct s as [st ch er lo ut ck na sa fi]. unfold states.
  apply in_flat_map. exists st. split; [apply in_bools|]. apply in_flat_map. exists ch. split; [apply in_bools|]. apply in_flat_map. exists er. split; [apply in_bools|].
  apply in_flat_map. exists lo. split; [apply in_bools|]. apply in_flat_map. exists ut. split; [destruct ut as [[[] []]|]; cbn; auto 10|]. apply in_flat_map. exists ck. split; [apply in_bools|].
  apply in_flat_map. exists na. split; [apply in_bools|]. apply in_flat_map. exists sa. split; [destruct sa as [[]|]; cbn; auto|].
  apply in_map_iff. exists fi. split; [reflexivity|apply in_bools].
Qed.
Lemma in_events e : In e events.
Proof.
  destruct e as [[]| | |[]| |[] []| |[]]; vm_compute; repeat first [left; reflexivity|right].
Qed.

Definition check (p : tor -> bool) (q : tor -> lop -> tor -> bool) : bool :=
  forallb (fun s => forallb (fun e => implb (p s) (match lstep s e with None => true | Some s' => q s e s' end)) events) states.
Lemma check_ok p q : check p q = true -> forall s e s', p s = true -> lstep s e = Some s' -> q s e s' = true.
Proof.
  intros C s e s' P E. unfold check in C. rewrite forallb_forall in C. specialize (C s (in_states s)). rewrite forallb_forall in C. specialize (C e (in_events e)).
  rewrite P, E in C. exact C.
Qed.

Lemma inv_step s e s' : invb s = true -> lstep s e = Some s' -> invb s' = true.
Proof. intros P E. refine (check_ok invb (fun _ _ s' => invb s') _ s e s' P E). vm_compute. reflexivity. Qed.

Lemma inv_run l : forall s s', invb s = true -> lrun s l = Some s' -> invb s' = true.
Proof.
  induction l as [|e l IH]; intros s s' I E; cbn [lrun] in E; [now injection E as <-|]. destruct (lstep s e) as [s1|] eqn:X; [|discriminate].
  eapply IH; [|exact E]. eapply inv_step; eauto.
Qed.
Lemma reach_inv s : reach s -> invb s = true.
Proof. intros (n & [(l & E)|(l & E)]); (eapply inv_run; [|exact E]); destruct n; reflexivity. Qed.

(** C47, the part which holds: a torrent running at shutdown whose metadata is there and saved is
    running after the restart, if its files can be opened. *)
Theorem C47_started_again_partial : forall s o, reach s -> tStarted s = true -> complete s -> tFile s = true -> o <> FsFail ->
  exists s', lstep s (LRestart o) = Some s' /\ tStarted s' = true.
Proof.
  intros s o R S C F O. apply reach_inv in R.
  pose (q := fun s e => implb (invb s && tStarted s && match tUtm s with None => true | Some u => uFinished u end && tFile s)
               (match e with LRestart FsFail => true | LRestart _ => match lstep s e with Some s' => tStarted s' | None => false end | _ => true end)).
  assert (Q : forallb (fun s => forallb (q s) events) states = true) by (vm_compute; reflexivity).
  rewrite forallb_forall in Q. specialize (Q s (in_states s)). rewrite forallb_forall in Q. specialize (Q (LRestart o) (in_events _)). unfold q in Q.
  rewrite R, S, F in Q. unfold complete in C.
  assert (CC : match tUtm s with None => true | Some u => uFinished u end = true) by (destruct (tUtm s); auto). rewrite CC in Q. cbn [andb implb] in Q.
  destruct o; [congruence| |]; destruct (lstep s _) as [s'|] eqn:E; try discriminate; exists s'; auto.
Qed.
Print Assumptions C47_started_again_partial.

(** A torrent added from a file always has it saved. *)
Lemma file_run l : forall s s', tFile s = true /\ tUtm s = None -> lrun s l = Some s' -> tFile s' = true /\ tUtm s' = None.
Proof.
  assert (ST : forall s e s', tFile s && match tUtm s with None => true | _ => false end = true -> lstep s e = Some s' -> tFile s' && match tUtm s' with None => true | _ => false end = true).
  { intros s e s' P E. refine (check_ok (fun s => tFile s && match tUtm s with None => true | _ => false end) (fun _ _ s' => tFile s' && match tUtm s' with None => true | _ => false end) _ s e s' P E).
    vm_compute. reflexivity. }
  induction l as [|e l IH]; intros s s' [I J] E; cbn [lrun] in E; [injection E as <-; auto|]. destruct (lstep s e) as [s1|] eqn:X; [|discriminate].
  eapply IH; [|exact E]. specialize (ST s e s1). rewrite I, J in ST. specialize (ST eq_refl X). apply andb_true_iff in ST as [A B]. destruct (tUtm s1); [discriminate|auto].
Qed.

(** C47 for torrents added from a file: whatever happened before, across any number of restarts. *)
Theorem C47_file_started_again : forall named l s o, lrun (newFile named) l = Some s -> tStarted s = true -> o <> FsFail ->
  exists s', lstep s (LRestart o) = Some s' /\ tStarted s' = true.
Proof.
  intros named l s o E S O. destruct (file_run l (newFile named) s (conj eq_refl eq_refl) E) as [F U]. apply C47_started_again_partial; auto.
  - exists named. left. eauto.
  - unfold complete. now rewrite U.
Qed.
Print Assumptions C47_file_started_again.

(** C47: a running torrent which the user stops stays stopped, whatever happens but a start by
    the user, across any number of restarts. *)
Theorem C47_stopped : forall s l s', reach s -> tStarted s = true -> (forall e, In e l -> match e with LStart _ => False | _ => True end) ->
  lrun (stopTor RManual s) l = Some s' -> tStarted s' = false.
Proof.
  intros s l s' R S N E. apply reach_inv in R.
  pose (p := fun s => negb (tStarted s) && negb (match tSaved s with Some true => true | _ => false end)).
  assert (P0 : p (stopTor RManual s) = true).
  { assert (Q : forallb (fun s => implb (invb s && tStarted s) (p (stopTor RManual s))) states = true) by (vm_compute; reflexivity).
    rewrite forallb_forall in Q. specialize (Q s (in_states s)). rewrite R, S in Q. exact Q. }
  assert (ST : forall s e s', p s = true -> lstep s e = Some s' -> match e with LStart _ => False | _ => True end -> p s' = true).
  { intros s1 e s2 P X NE.
    assert (Q : check p (fun _ e s' => match e with LStart _ => true | _ => p s' end) = true) by (vm_compute; reflexivity).
    pose proof (check_ok _ _ Q s1 e s2 P X) as Y. destruct e; try contradiction; exact Y. }
  assert (PR : p s' = true).
  { revert E. generalize dependent (stopTor RManual s). clear - ST N. induction l as [|e l IH]; intros s0 P0 E; cbn [lrun] in E; [now injection E as <-|].
    destruct (lstep s0 e) as [s1|] eqn:X; [|discriminate]. eapply IH; [intros; apply N; now right| |exact E]. eapply ST; eauto. apply N. now left. }
  unfold p in PR. apply andb_true_iff in PR as [PR _]. now destruct (tStarted s').
Qed.
Print Assumptions C47_stopped.

(** Finding: a torrent added by a magnet link and started is gone after a restart if its metadata
    did not arrive before. *)
Theorem C47_magnet_refuted : forall named o, exists s, lrun (newMagnet named) [LStart FsOk] = Some s /\ tStarted s = true /\ lstep s (LRestart o) = None.
Proof. intros named o. destruct named, o; eexists; (split; [vm_compute; reflexivity|split; vm_compute; reflexivity]). Qed.
Print Assumptions C47_magnet_refuted.

(** Finding: a torrent which could not be started at launch (say the drive was missing) and is
    then stopped by the user is started at the next launch. *)
Theorem C47_failed_start_refuted : exists s, lrun (newFile true) [LStart FsOk; LRestart FsFail; LStop; LRestart FsOk] = Some s /\ tStarted s = true.
Proof. eexists. split; vm_compute; reflexivity. Qed.
Print Assumptions C47_failed_start_refuted.

(** Finding: stopped and started again while its metadata is downloading, a torrent does not run
    when the metadata arrives, and nothing remembers the start. *)
Theorem C47_metadata_refuted : exists s, lrun (newMagnet true) [LStart FsOk; LStop; LStart FsOk; LMetadata FsOk] = Some s /\ tStarted s = false.
Proof. eexists. split; vm_compute; reflexivity. Qed.
Print Assumptions C47_metadata_refuted.

(** Finding: the second start of a torrent whose .torrent file is missing goes through, without
    any metadata. *)
Theorem C47_second_start_refuted : exists s, lrun (newMagnet true) [LSelect; LRestart FsOk; LStart FsOk; LStart FsOk] = Some s /\ tStarted s = true /\ tFile s = false /\ tErr s = false.
Proof. eexists. split; [vm_compute; reflexivity|split; [|split]; vm_compute; reflexivity]. Qed.
Print Assumptions C47_second_start_refuted.

Example ex_life : exists s, lrun (newMagnet false) [LStart FsOk; LMetadata FsOk; LCheck; LChecked false FsOk; LRestart FsOk; LError; LRestart FsOk; LStart FsOk] = Some s /\ tStarted s = true /\ tFile s = true.
Proof. eexists. split; [vm_compute; reflexivity|split; vm_compute; reflexivity]. Qed.

(** ** What a start and a check do to the reported state *)

(** C47: starting a torrent whose metadata is there starts it exactly if its files could be
    opened, and reports an error exactly if they could not. *)
Theorem C47_start_outcome : forall s o s', reach s -> complete s -> tChecking s = false -> tLoaded s = true \/ tFile s = true -> lstep s (LStart o) = Some s' ->
  (tStarted s' = true <-> o <> FsFail) /\ (tErr s' = true <-> o = FsFail) /\ (o = FsCheck -> tChecking s' = true).
Proof.
  intros s o s' R C K L E. apply reach_inv in R.
  pose (p := fun s => invb s && match tUtm s with None => true | Some u => uFinished u end && negb (tChecking s) && (tLoaded s || tFile s)).
  pose (q := fun (s : tor) e s' => match e with LStart FsFail => negb (tStarted s') && tErr s' | LStart FsOk => tStarted s' && negb (tErr s') | LStart FsCheck => tStarted s' && negb (tErr s') && tChecking s' | _ => true end).
  assert (P : p s = true).
  { unfold p. rewrite R, K. replace (match tUtm s with None => true | Some u => uFinished u end) with true by (unfold complete in C; destruct (tUtm s); auto). destruct L as [->| ->]; [|rewrite Bool.orb_true_r]; reflexivity. }
  assert (Q : check p q = true) by (vm_compute; reflexivity). pose proof (check_ok p q Q s _ _ P E) as X. unfold q in X.
  destruct o; destruct (tStarted s'), (tErr s'), (tChecking s'); cbn in X; try discriminate X; repeat split; intros; congruence.
Qed.
Print Assumptions C47_start_outcome.

(** C47: the first start of a torrent without its .torrent file fails and reports it. *)
Theorem C47_start_missing : forall s o s', tUtm s = None -> tLoaded s = false -> tFile s = false -> lstep s (LStart o) = Some s' -> tStarted s' = false /\ tErr s' = true.
Proof.
  intros s o s' U L F E.
  pose (p := fun s => match tUtm s with None => true | _ => false end && negb (tLoaded s) && negb (tFile s)).
  pose (q := fun (s : tor) e s' => match e with LStart _ => negb (tStarted s') && tErr s' | _ => true end).
  assert (P : p s = true) by (unfold p; now rewrite U, L, F).
  assert (Q : check p q = true) by (vm_compute; reflexivity). pose proof (check_ok p q Q s _ _ P E) as X. unfold q in X.
  destruct (tStarted s'), (tErr s'); cbn in X; try discriminate X; auto.
Qed.
Print Assumptions C47_start_missing.

(** C47: a check which begins takes away the error; while one runs another request does nothing. *)
Theorem C47_check_begins : forall s s', lstep s LCheck = Some s' -> tChecking s' = true /\ tStarted s' = tStarted s /\ (tChecking s = false -> tErr s' = false) /\ (tChecking s = true -> s' = s).
Proof. intros s s' E. cbn in E. injection E as <-. destruct (tChecking s) eqn:K; cbn; repeat split; congruence. Qed.
Print Assumptions C47_check_begins.

Example ex_missing : exists s, lrun (newMagnet true) [LSelect; LRestart FsOk] = Some s /\ tUtm s = None /\ tLoaded s = false /\ tFile s = false.
Proof. eexists. split; [vm_compute; reflexivity|]. vm_compute. auto. Qed.
Example ex_start : exists s, lrun (newMagnet true) [LStart FsOk; LMetadata FsOk; LRestart FsOk; LStop] = Some s /\ reach s /\ complete s /\ tChecking s = false /\ (tLoaded s = true \/ tFile s = true).
Proof. eexists. split; [vm_compute; reflexivity|]. split; [exists true; right; exists [LStart FsOk; LMetadata FsOk; LRestart FsOk; LStop]; vm_compute; reflexivity|]. vm_compute. auto. Qed.
