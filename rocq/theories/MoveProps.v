(** C104: moving the download directory moves the files of the torrent, whole, and touches nothing else *)
From Verif Require Import Base BaseLemmas PathModel PathSpec PathProps MoveModel MoveSpec MoveProofs.
From Coq Require Import Lia List.
Import ListNotations.

(** When it fails, the path and the disk stay as they were *)
Theorem C104_failed : forall bad mk mv name n p move path d s path' d', setPath bad mk mv name n p move path d = (s, path', d') -> s <> Success -> path' = path /\ d' = d.
Proof.
  intros bad mk mv name n p move path d s path' d' E N. unfold setPath in E. cbv zeta in E.
  destruct (list_eqb path (withSeparator p)); [congruence|]. destruct bad; [injection E as <- <- <-; now split|].
  destruct (_ && _ && _ && (if (n =? 1)%nat then _ else _)); [injection E as <- <- <-; now split|].
  destruct (if _ && exists_ (getRootpath name path) d then _ else _) as [d1|]; [|injection E as <- <- <-; now split].
  destruct (exists_ (utf8Path (withSeparator p)) d); [congruence|]. destruct (createPath mk _ d1); [congruence|]. injection E as <- <- <-. now split.
Qed.
Print Assumptions C104_failed.

(** When it succeeds, the path is the one asked for *)
Theorem C104_path : forall bad mk mv name n p move path d path' d', setPath bad mk mv name n p move path d = (Success, path', d') -> path' = withSeparator p.
Proof.
  intros bad mk mv name n p move path d path' d' E. unfold setPath in E. cbv zeta in E.
  destruct (list_eqb path (withSeparator p)) eqn:L; [apply list_eqb_spec in L; congruence|]. destruct bad; [congruence|].
  destruct (_ && _ && _ && (if (n =? 1)%nat then _ else _)); [congruence|].
  destruct (if _ && exists_ (getRootpath name path) d then _ else _) as [d1|]; [|congruence].
  destruct (exists_ (utf8Path (withSeparator p)) d); [congruence|]. destruct (createPath mk _ d1); congruence.
Qed.
Print Assumptions C104_path.

(** What a call does to the disk: nothing, a rename of the torrent's root, or new directories *)
Lemma disk_cases : forall bad mk mv name n p move path d s path' d', setPath bad mk mv name n p move path d = (s, path', d') ->
  d' = d \/
  (s = Success /\ path <> withSeparator p /\ exists_ (utf8Path (withSeparator p)) d = true /\ move = true /\ rename mv (place (getRootpath name path)) (place (getRootpath name (withSeparator p))) d = Some d' /\
   (if (n =? 1)%nat then fileSize (getRootpath name (withSeparator p)) d = 0 else exists_ (getRootpath name (withSeparator p)) d = false \/ isEmpty (getRootpath name (withSeparator p)) d = true)) \/
  (s = Success /\ exists_ (utf8Path (withSeparator p)) d = false /\ createPath mk (utf8Path (withSeparator p)) d = Some d').
Proof.
  intros bad mk mv name n p move path d s path' d' E. unfold setPath in E. cbv zeta in E.
  destruct (list_eqb path (withSeparator p)) eqn:L; [left; congruence|]. destruct bad; [left; congruence|].
  destruct (exists_ (utf8Path (withSeparator p)) d) eqn:T.
  - destruct move; cbn [andb] in E; [|left; congruence]. destruct (negb (n =? 0)%nat) eqn:Z0; cbn [andb] in E; [|left; congruence].
    destruct (if (n =? 1)%nat then _ else _) eqn:Y; [left; congruence|].
    destruct (exists_ (getRootpath name path) d) eqn:X; [|left; congruence]. destruct (rename mv _ _ d) as [d1|] eqn:R; [|left; congruence].
    right. left. injection E as <- <- <-. split; [reflexivity|]. split; [intros C; rewrite C, list_eqb_refl in L; discriminate|]. split; [reflexivity|]. split; [reflexivity|]. split; [reflexivity|].
    destruct (n =? 1)%nat. { apply Bool.negb_false_iff in Y. now apply Z.eqb_eq. } apply Bool.andb_false_iff in Y. destruct Y as [Y|Y]; [now left|right]. now apply Bool.negb_false_iff.
  - cbn [andb] in E. destruct (createPath mk (utf8Path (withSeparator p)) d) as [d2|] eqn:C; [|left; congruence]. right. right. injection E as <- <- <-. now repeat split.
Qed.

(** Whatever is asked for, no bytes are lost: every file that is not empty is where it was or at the same place below the new root *)
Theorem C104_kept : forall bad mk mv name n p move path d s path' d', tree d -> setPath bad mk mv name n p move path d = (s, path', d') ->
  forall q b, nodeAt q d = Some (File b) -> b <> [] ->
  nodeAt q d' = Some (File b) \/ exists r, q = place (getRootpath name path) ++ r /\ nodeAt (place (getRootpath name (withSeparator p)) ++ r) d' = Some (File b).
Proof.
  intros bad mk mv name n p move path d s path' d' T E q b Q B. destruct (disk_cases _ _ _ _ _ _ _ _ _ _ _ _ E) as [->|[(_ & _ & _ & _ & R & Y)|(_ & _ & C)]]; [now left| |].
  - set (o := place (getRootpath name path)) in *. set (w := place (getRootpath name (withSeparator p))) in *.
    destruct (same o w) eqn:S0. { unfold rename in R. rewrite S0 in R. destruct mv; [|discriminate]. cbn [negb] in R. destruct (nodeAt o d); [|discriminate]. injection R as <-. now left. }
    assert (D : o <> w) by (intros D; rewrite D, same_refl in S0; discriminate). destruct (rename_spec _ _ _ _ _ T R D) as (A1 & A2 & _ & A3 & A4 & A5 & A6).
    destruct (under o q) as [r|] eqn:U. { apply under_some in U. right. exists r. split; [exact U|]. rewrite A3. now rewrite <- U. }
    destruct (under w q) as [r|] eqn:V; [|left; now rewrite A5].
    apply under_some in V. exfalso. destruct r as [|x r].
    + rewrite app_nil_r in V. subst q. destruct A6 as [A6|[(x & y & A6 & A7)|A6]]; try congruence. rewrite Q in A7. injection A7 as <-.
      unfold fileSize, exists_, isEmpty in Y. fold w in Y. rewrite Q in Y. destruct b as [|c b]; [congruence|].
      destruct (n =? 1)%nat; [unfold zlen in Y; cbn in Y; lia|]. destruct Y as [Y|Y].
      * unfold w in Q. destruct (getRootpath name (withSeparator p)); [discriminate Q|discriminate Y].
      * unfold zlen in Y. cbn in Y. lia.
    + assert (W : nodeAt w d = Some Dir). { destruct A6 as [A6|[(z & y & A6 & A7)|A6]]; [|rewrite V, none_below in Q by (try exact T; congruence); discriminate|exact A6]. rewrite V, none_below in Q by (try exact T; congruence). discriminate. }
      (* a directory that has something below is not renamed over *)
      assert (NB : nothingBelow w d = true). { unfold rename in R. rewrite S0, A1 in R. destruct mv; [|discriminate]. cbn [negb] in R. destruct (nodeAt o d) as [k|]; [|discriminate].
        destruct (nodeAt (removelast w) d) as [[]|]; try discriminate. rewrite W in R. destruct k; [|discriminate]. destruct (nothingBelow w d); [reflexivity|discriminate]. }
      assert (I : exists e, In e d /\ fst e = q). { clear - Q V. rewrite nodeAt_entry in Q by (rewrite V; now destruct w). revert Q. induction d as [|[z k] d I]; intros Q; [discriminate|]. cbn [entry] in Q.
        destruct (same z q) eqn:Z0; [exists (z, k); split; [now left|now apply same_spec]|]. destruct (I Q) as (e & I1 & I2). exists e. split; [now right|exact I2]. }
      destruct I as (e & I1 & I2). pose proof (nothingBelow_spec w d NB e (x :: r) I1) as X. rewrite I2, V in X. rewrite under_app in X. discriminate (X eq_refl).
  - left. unfold createPath in C. destruct (exists_ _ d); [congruence|]. destruct (parentPath _); [discriminate|]. destruct mk; [|discriminate]. exact (makeDirs_keeps _ _ _ _ _ _ C Q).
Qed.
Print Assumptions C104_kept.

(** A move to another directory that is there, told as a success: all that was at the torrent's root is at the new one, nothing is left behind,
    and every other place is as it was. Missing: directories that are not there yet (C104_left_refuted). *)
Theorem C104_moved_partial : forall mk mv name n p path0 d path' d', tree d -> plain name -> ~ In 0 p -> ~ In 0 path0 -> (0 < n)%nat ->
  let path := withSeparator path0 in place path <> place p ->
  exists_ (withSeparator p) d = true -> nodeAt (place path ++ [name]) d <> None ->
  setPath false mk mv name n p true path d = (Success, path', d') ->
  (forall r, nodeAt (place p ++ name :: r) d' = nodeAt (place path ++ name :: r) d) /\ (forall r, nodeAt (place path ++ name :: r) d' = None) /\
  (forall q, under (place path ++ [name]) q = None -> under (place p ++ [name]) q = None -> nodeAt q d' = nodeAt q d).
Proof.
  intros mk mv name n p path0 d path' d' T P N N0 L path D X O E. unfold path in *. rewrite place_with_sep in *.
  unfold setPath in E. cbv zeta in E.
  destruct (list_eqb (withSeparator path0) (withSeparator p)) eqn:Q; [apply list_eqb_spec in Q; exfalso; apply D; rewrite <- (place_with_sep path0), <- (place_with_sep p); congruence|].
  rewrite (utf8_id (withSeparator p)) in E by now apply nozero_sep. rewrite X in E. replace (negb (n =? 0)%nat) with true in E by (destruct n; [lia|reflexivity]). cbn [andb] in E.
  destruct (if (n =? 1)%nat then _ else _); [discriminate|].
  assert (EX : exists_ (getRootpath name (withSeparator path0)) d = true). { unfold exists_. rewrite root_place by assumption. pose proof (root_text name path0 N0 P). destruct (getRootpath name (withSeparator path0)); [congruence|]. destruct (nodeAt _ d); congruence. }
  rewrite EX in E. rewrite !root_place in E by assumption. destruct (rename mv _ _ d) as [d1|] eqn:R; [|discriminate]. injection E as <- <-.
  assert (DD : place path0 ++ [name] <> place p ++ [name]) by (intros W; apply app_inj_tail in W; now apply D).
  destruct (rename_spec _ _ _ _ _ T R DD) as (_ & _ & _ & A3 & A4 & A5 & _).
  split; [intros r; specialize (A3 r); now rewrite <- !app_assoc in A3|]. split; [intros r; specialize (A4 r); now rewrite <- !app_assoc in A4|exact A5].
Qed.
Print Assumptions C104_moved_partial.

(** So each file of a torrent of several is found where the new path says, with the bytes it had *)
Theorem C104_files_partial : forall mk mv name n p path0 d path' d' f q, tree d -> plain name -> ~ In 0 p -> ~ In 0 path0 -> (0 < n)%nat ->
  let path := withSeparator path0 in place path <> place p -> exists_ (withSeparator p) d = true -> nodeAt (place path ++ [name]) d <> None ->
  plain (fst f) -> Forall plain q -> snd f = name :: q ->
  setPath false mk mv name n p true path d = (Success, path', d') ->
  nodeAt (place (getFullpath f path')) d' = nodeAt (place (getFullpath f path)) d.
Proof.
  intros mk mv name n p path0 d path' d' [fn fp] q T P N N0 L path D X O F1 F2 F3 E. cbn [fst snd] in *. subst fp.
  destruct (C104_moved_partial mk mv name n p path0 d path' d' T P N N0 L D X O E) as (A & _). rewrite (C104_path _ _ _ _ _ _ _ _ _ _ _ E).
  rewrite !C76_below_partial by (try assumption; try (now apply nozero_sep); now constructor). rewrite (place_with_sep p). cbn [app]. exact (A (q ++ [fn])).
Qed.
Print Assumptions C104_files_partial.

(** The move of a torrent of several files succeeds whenever the directory is there and the new root is not, or is empty *)
Theorem C104_succeeds : forall mk name n p path0 d, plain name -> ~ In 0 p -> ~ In 0 path0 -> (1 < n)%nat ->
  let path := withSeparator path0 in nodeAt (place p) d = Some Dir -> p <> [] ->
  nodeAt (place path ++ [name]) d = Some Dir -> under (place path ++ [name]) (place p ++ [name]) = None ->
  nodeAt (place p ++ [name]) d = None \/ nodeAt (place p ++ [name]) d = Some Dir /\ nothingBelow (place p ++ [name]) d = true ->
  fst (setPath false mk true name n p true path d) = (Success, withSeparator p).
Proof.
  intros mk name n p path0 d P N N0 L path X PN O U W. unfold path in *. rewrite place_with_sep in *. unfold setPath. cbv zeta.
  destruct (list_eqb (withSeparator path0) (withSeparator p)) eqn:Q. { apply list_eqb_spec in Q. now rewrite <- Q. }
  rewrite (utf8_id (withSeparator p)) by now apply nozero_sep.
  replace (exists_ (withSeparator p) d) with true; [|unfold exists_; rewrite place_with_sep, X; unfold withSeparator; destruct p as [|c p]; [congruence|]; destruct (_ =? 47); reflexivity].
  destruct (n =? 0)%nat eqn:N1; [apply Nat.eqb_eq in N1; lia|]. destruct (n =? 1)%nat eqn:N2; [apply Nat.eqb_eq in N2; lia|]. cbn [andb negb].
  pose proof (root_text name p N P) as RT. pose proof (root_text name path0 N0 P) as RO.
  replace (exists_ (getRootpath name (withSeparator p)) d && negb (isEmpty (getRootpath name (withSeparator p)) d)) with false;
    [|unfold exists_, isEmpty; rewrite root_place by assumption; destruct (getRootpath name (withSeparator p)); [congruence|]; destruct W as [W|(W & W2)]; rewrite W; [reflexivity|now rewrite W2]].
  replace (exists_ (getRootpath name (withSeparator path0)) d) with true; [|unfold exists_; rewrite root_place by assumption; rewrite O; destruct (getRootpath name (withSeparator path0)); congruence].
  rewrite !root_place by assumption. unfold rename. cbn [negb]. rewrite O. unfold same. rewrite U. rewrite removelast_last, X.
  destruct W as [W|(W & W2)]; rewrite W; [reflexivity|]. now rewrite W2.
Qed.
Print Assumptions C104_succeeds.

(** Violated: a torrent of a single file is not moved to a directory that has no such file: the size of the missing file is taken for 2^64-1 bytes *)
Theorem C104_single_refuted : forall mk mv name p path d, plain name -> ~ In 0 p -> path <> withSeparator p -> exists_ (withSeparator p) d = true ->
  nodeAt (place p ++ [name]) d = None -> setPath false mk mv name 1 p true path d = (E_NotEmpty, path, d).
Proof.
  intros mk mv name p path d P N D X W. unfold setPath. cbv zeta. destruct (list_eqb path (withSeparator p)) eqn:Q; [apply list_eqb_spec in Q; contradiction|].
  rewrite (utf8_id (withSeparator p)) by now apply nozero_sep. rewrite X. cbn [Nat.eqb negb andb]. unfold fileSize. rewrite root_place by assumption. now rewrite W.
Qed.
Print Assumptions C104_single_refuted.

(** ... it is moved only over an empty file of its name *)
Theorem C104_single : forall mk mv name p path d path' d', plain name -> ~ In 0 p -> path <> withSeparator p -> exists_ (withSeparator p) d = true ->
  setPath false mk mv name 1 p true path d = (Success, path', d') -> nodeAt (place p ++ [name]) d = Some (File []).
Proof.
  intros mk mv name p path d path' d' P N D X E. unfold setPath in E. cbv zeta in E. destruct (list_eqb path (withSeparator p)) eqn:Q; [apply list_eqb_spec in Q; contradiction|].
  rewrite (utf8_id (withSeparator p)) in E by now apply nozero_sep. rewrite X in E. cbn [Nat.eqb negb andb] in E. unfold fileSize in E. rewrite root_place in E by assumption.
  destruct (nodeAt (place p ++ [name]) d) as [[|b]|]; [discriminate E| |discriminate E]. destruct b as [|c b]; [reflexivity|]. replace (zlen (c :: b) =? 0) with false in E; [discriminate E|]. unfold zlen. cbn [length]. lia.
Qed.
Print Assumptions C104_single.

(** Violated: when the new directory is not there, it is made and the path is changed, but every file stays where it was and none is at the new
    place; and as the files were to be moved they are not checked again *)
Theorem C104_left_refuted : forall mk mv name n p path d path' d', plain name -> ~ In 0 p -> path <> withSeparator p -> tree d ->
  exists_ (withSeparator p) d = false -> setLocationPath false mk mv name n p true path d = (false, (Success, path', d')) ->
  path' = withSeparator p /\ (forall q x, nodeAt q d = Some x -> nodeAt q d' = Some x) /\ (forall r, nodeAt (place p ++ name :: r) d' = None).
Proof.
  intros mk mv name n p path d path' d' P N D T X E. unfold setLocationPath in E. cbv zeta in E. injection E as _ E.
  split; [exact (C104_path _ _ _ _ _ _ _ _ _ _ _ E)|]. unfold setPath in E. cbv zeta in E. destruct (list_eqb path (withSeparator p)) eqn:Q; [apply list_eqb_spec in Q; contradiction|].
  rewrite (utf8_id (withSeparator p)) in E by now apply nozero_sep. rewrite X in E. cbn [andb] in E. unfold createPath in E. rewrite parentPath_sep, X in E.
  assert (PN : withSeparator p <> []) by (destruct (withSeparator p); [discriminate|discriminate]).
  assert (PA : nodeAt (place p) d = None). { unfold exists_ in X. rewrite place_with_sep in X. destruct (withSeparator p); [congruence|]. destruct (nodeAt (place p) d); [discriminate|reflexivity]. }
  destruct (withSeparator p) as [|c w] eqn:W; [congruence|]. destruct mk; [|discriminate]. rewrite <- W, place_with_sep in E. destruct (makeDirs [] (place p) d) as [d2|] eqn:M; [|discriminate]. injection E as _ <-.
  split; [intros q x Q2; exact (makeDirs_keeps _ _ _ _ _ _ M Q2)|]. intros r. apply (makeDirs_only _ _ _ _ _ M).
  - apply none_below; [exact T|congruence|discriminate].
  - cbn [app]. destruct (under (place p ++ name :: r) (place p)) as [x|] eqn:U; [|reflexivity]. apply under_some in U. apply (f_equal (@length _)) in U. rewrite !app_length in U. cbn in U. lia.
Qed.
Print Assumptions C104_left_refuted.

(** Without moving, nothing on the disk changes but for the new directory, and the files are checked at the new place *)
Theorem C104_stay : forall bad mk mv name n p path d c path' d', setLocationPath bad mk mv name n p false path d = (c, (Success, path', d')) ->
  c = true /\ path' = withSeparator p /\ (forall q x, nodeAt q d = Some x -> nodeAt q d' = Some x).
Proof.
  intros bad mk mv name n p path d c path' d' E. unfold setLocationPath in E. cbv zeta in E. injection E as E1 E. rewrite E in E1. cbn in E1. subst c. split; [reflexivity|].
  split; [exact (C104_path _ _ _ _ _ _ _ _ _ _ _ E)|]. destruct (disk_cases _ _ _ _ _ _ _ _ _ _ _ _ E) as [->|[(_ & _ & _ & M & _)|(_ & _ & C)]]; [auto|discriminate|].
  unfold createPath in C. destruct (exists_ _ d); [intros q x Q; congruence|]. destruct (parentPath _); [discriminate|]. destruct mk; [|discriminate]. intros q x Q. exact (makeDirs_keeps _ _ _ _ _ _ C Q).
Qed.
Print Assumptions C104_stay.

(** A disk with the directories /a and /b and a torrent t of two files in /a *)
Example disk0 : disk := [([[97]], Dir); ([[98]], Dir); ([[97]; [116]], Dir); ([[97]; [116]; [120]], File [1; 2]); ([[97]; [116]; [121]], File [3])].
Example C104_ex_tree : tree disk0.
Proof.
  intros q x H. unfold nodeAt in H. destruct (q ++ [x]) as [|y l] eqn:E; [destruct q; discriminate|]. rewrite <- E in H. clear E y l. unfold disk0 in H. cbn [entry] in H.
  repeat match type of H with context [same ?k (q ++ [x])] => destruct (same k (q ++ [x])) eqn:S0; [apply same_spec in S0; symmetry in S0; first [change k with ([] ++ k) in S0 | idtac];
    destruct q as [|a [|b [|e [|g q]]]]; cbn in S0; try discriminate S0; injection S0; intros; subst; reflexivity|clear S0] end. congruence.
Qed.
Example C104_ex_moved : setPath false true true [116] 2 [47; 98] true (withSeparator [47; 97]) disk0 =
  (Success, [47; 98; 47], [([[97]], Dir); ([[98]], Dir); ([[98]; [116]], Dir); ([[98]; [116]; [120]], File [1; 2]); ([[98]; [116]; [121]], File [3])]).
Proof. reflexivity. Qed.
Example C104_ex_single : setPath false true true [116] 1 [47; 98] true (withSeparator [47; 97]) [([[97]], Dir); ([[98]], Dir); ([[97]; [116]], File [1])] =
  (E_NotEmpty, [47; 97; 47], [([[97]], Dir); ([[98]], Dir); ([[97]; [116]], File [1])]).
Proof. reflexivity. Qed.
Example C104_ex_left : setLocationPath false true true [116] 2 [47; 99; 47; 100] true [47; 97; 47] disk0 = (false, (Success, [47; 99; 47; 100; 47], ([[99]; [100]], Dir) :: ([[99]], Dir) :: disk0)).
Proof. reflexivity. Qed.
