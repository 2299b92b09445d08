From Verif Require Import Base BaseLemmas PathModel PathSpec PathProps MoveModel MoveSpec.
From Coq Require Import Lia List.
Import ListNotations.

Lemma under_some : forall a q r, under a q = Some r <-> q = a ++ r.
Proof.
  induction a as [|x a I]; intros q r; cbn [under app]; [split; congruence|]. destruct q as [|y q]; [split; discriminate|].
  destruct (list_eqb x y) eqn:E. { apply list_eqb_spec in E. subst. rewrite I. split; congruence. }
  split; [discriminate|]. intros [= -> _]. now rewrite list_eqb_refl in E.
Qed.
Lemma under_app : forall a r, under a (a ++ r) = Some r. Proof. intros a r. now apply under_some. Qed.
Lemma same_spec : forall a b, same a b = true <-> a = b.
Proof.
  intros a b. unfold same. destruct (under a b) as [r|] eqn:E; [apply under_some in E; subst; destruct r; [rewrite app_nil_r; tauto|]|].
  - split; [discriminate|]. intros X. apply (f_equal (@length _)) in X. rewrite app_length in X. cbn in X. lia.
  - split; [discriminate|]. intros <-. rewrite <- (app_nil_r a) in E at 2. now rewrite under_app in E.
Qed.
Lemma same_refl : forall a, same a a = true. Proof. intros a. now apply same_spec. Qed.
Lemma under_nil_refl : forall a, under a a = Some []. Proof. intros a. rewrite <- (app_nil_r a) at 2. apply under_app. Qed.
Lemma same_no : forall a b, a <> b -> same a b = false. Proof. intros a b N. destruct (same a b) eqn:E; [apply same_spec in E; contradiction|reflexivity]. Qed.

Lemma under_cross : forall a b r, under a b = None -> under b a = None -> under b (a ++ r) = None.
Proof.
  induction a as [|x a I]; intros b r A B; [discriminate|]. destruct b as [|y b]; [discriminate|]. cbn [under app] in *.
  destruct (list_eqb y x) eqn:E; [|reflexivity]. apply list_eqb_spec in E. subst. rewrite list_eqb_refl in A. now apply I.
Qed.

(** What a move does to the places *)
Lemma entry_moved : forall a b d q, (forall e r, In e d -> under b (fst e) = Some r -> r = []) -> under a b = None -> under b a = None ->
  entry q (moved a b d) = match under b q with Some r => entry (a ++ r) d | None => match under a q with Some _ => None | None => entry q d end end.
Proof.
  intros a b d q N A B. induction d as [|[p n] d I]. { cbn. destruct (under b q), (under a q); reflexivity. }
  assert (N2 : forall e r, In e d -> under b (fst e) = Some r -> r = []) by (intros e r E; apply N; now right). specialize (I N2). unfold moved in *. cbn [filter fst].
  destruct (same p b) eqn:E; cbn [negb].
  - apply same_spec in E. subst p. rewrite I. cbn [entry]. destruct (under b q) as [r|] eqn:Q.
    + rewrite same_no; [reflexivity|]. intros X. rewrite X, under_app in A. discriminate.
    + destruct (under a q); [reflexivity|]. rewrite same_no; [reflexivity|]. intros ->. rewrite under_nil_refl in Q. discriminate.
  - cbn [map entry fst snd]. destruct (under a p) as [r1|] eqn:P.
    + apply under_some in P. subst p. destruct (same (b ++ r1) q) eqn:Q. { apply same_spec in Q. subst q. rewrite under_app. now rewrite same_refl. }
      rewrite I. destruct (under b q) as [r|] eqn:Q2. { apply under_some in Q2. subst q. rewrite same_no; [reflexivity|]. intros X. apply app_inv_head in X. subst. now rewrite same_refl in Q. }
      destruct (under a q) eqn:Q3; [reflexivity|]. rewrite same_no; [reflexivity|]. intros <-. rewrite under_app in Q3. discriminate.
    + assert (P2 : under b p = None). { destruct (under b p) as [r|] eqn:P2; [|reflexivity]. assert (r = []) by (apply (N (p, n)); [now left|exact P2]). subst r. apply under_some in P2. rewrite app_nil_r in P2. subst. now rewrite same_refl in E. }
      destruct (same p q) eqn:Q. { apply same_spec in Q. subst q. now rewrite P2, P. }
      rewrite I. destruct (under b q) as [r|]; [|reflexivity]. rewrite same_no; [reflexivity|]. intros ->. rewrite under_app in P. discriminate.
Qed.

Lemma entry_in : forall e d, In e d -> entry (fst e) d <> None.
Proof. intros e d. induction d as [|[p n] d I]; intros H; [destruct H|]. cbn [entry]. destruct H as [<-|H]; [cbn; rewrite same_refl; discriminate|]. destruct (same p (fst e)); [discriminate|now apply I]. Qed.

(** Nothing is below what is no directory *)
Lemma none_below : forall d b, tree d -> nodeAt b d <> Some Dir -> forall r, r <> [] -> nodeAt (b ++ r) d = None.
Proof.
  intros d b T N r. induction r as [|x r I] using rev_ind; intros R; [congruence|]. destruct (nodeAt (b ++ r ++ [x]) d) eqn:E; [|reflexivity]. exfalso.
  assert (P : nodeAt (b ++ r) d = Some Dir) by (apply (T _ x); rewrite <- app_assoc, E; discriminate).
  destruct r as [|y r]; [rewrite app_nil_r in P; contradiction|]. rewrite I in P by discriminate. discriminate.
Qed.

Lemma nothingBelow_spec : forall q d, nothingBelow q d = true -> forall e r, In e d -> under q (fst e) = Some r -> r = [].
Proof.
  intros q d N e r E U. unfold nothingBelow in N. apply Bool.negb_true_iff in N. destruct r as [|x r]; [reflexivity|]. exfalso.
  assert (X : existsb (fun e => match under q (fst e) with Some (_ :: _) => true | _ => false end) d = true) by (apply existsb_exists; exists e; now rewrite U). congruence.
Qed.

Lemma nodeAt_entry : forall q d, q <> [] -> nodeAt q d = entry q d. Proof. intros [|x q] d N; [congruence|reflexivity]. Qed.

Lemma below_rest : forall d b, tree d -> nodeAt b d <> Some Dir -> forall e r, In e d -> under b (fst e) = Some r -> r = [].
Proof.
  intros d b T N e r E U. apply under_some in U. destruct r as [|x r]; [reflexivity|]. exfalso.
  pose proof (none_below d b T N (x :: r) ltac:(discriminate)) as X. rewrite <- U in X. rewrite nodeAt_entry in X by (rewrite U; now destruct b). now apply (entry_in e d).
Qed.

(** What rename does to every place *)
Lemma rename_spec : forall a b d d' m, tree d -> rename m a b d = Some d' -> a <> b ->
  under a b = None /\ under b a = None /\ nodeAt a d <> None /\
  (forall r, nodeAt (b ++ r) d' = nodeAt (a ++ r) d) /\ (forall r, nodeAt (a ++ r) d' = None) /\
  (forall q, under a q = None -> under b q = None -> nodeAt q d' = nodeAt q d) /\
  (nodeAt b d = None \/ (exists x y, nodeAt a d = Some (File x) /\ nodeAt b d = Some (File y)) \/ nodeAt b d = Some Dir).
Proof.
  intros a b d d' m T R D. unfold rename in R. destruct m; cbn [negb] in R; [|discriminate]. destruct (nodeAt a d) as [n|] eqn:E; [|discriminate].
  rewrite same_no in R by exact D. destruct (under a b) eqn:A; [discriminate|]. assert (a <> []) as A0 by (intros ->; discriminate).
  assert (G : d' = moved a b d /\ (forall e r, In e d -> under b (fst e) = Some r -> r = []) /\ (nodeAt b d = None \/ (exists x y, Some n = Some (File x) /\ nodeAt b d = Some (File y)) \/ nodeAt b d = Some Dir)).
  { destruct (nodeAt (removelast b) d) as [[]|]; try discriminate. destruct (nodeAt b d) as [[|y]|] eqn:F, n as [|x]; try discriminate.
    - destruct (nothingBelow b d) eqn:W; [|discriminate]. injection R as <-. split; [reflexivity|]. split; [now apply nothingBelow_spec|]. auto.
    - injection R as <-. split; [reflexivity|]. split; [apply below_rest; [exact T|congruence]|]. right. left. eauto.
    - injection R as <-. split; [reflexivity|]. split; [apply below_rest; [exact T|congruence]|]. auto.
    - injection R as <-. split; [reflexivity|]. split; [apply below_rest; [exact T|congruence]|]. auto. }
  clear R. destruct G as (-> & N & K).
  assert (B : under b a = None). { destruct (under b a) as [r|] eqn:B; [|reflexivity]. exfalso. rewrite nodeAt_entry in E by exact A0.
    assert (I : exists e, In e d /\ fst e = a). { clear - E. revert E. induction d as [|[p k] d I]; intros E; [discriminate|]. cbn [entry] in E. destruct (same p a) eqn:S0; [exists (p, k); split; [now left|now apply same_spec]|]. destruct (I E) as (e & I1 & I2). exists e. split; [now right|exact I2]. }
    destruct I as (e & I1 & I2). subst a. rewrite (N e r I1 B) in B. apply under_some in B. rewrite app_nil_r in B. congruence. }
  assert (b <> []) as B0 by (intros ->; discriminate).
  split; [exact eq_refl|]. split; [exact B|]. split; [discriminate|].
  split; [|split; [|split; [|exact K]]].
  - intros r. rewrite !nodeAt_entry by (destruct a, b; cbn; congruence). rewrite entry_moved by assumption. now rewrite under_app.
  - intros r. rewrite !nodeAt_entry by (destruct a, b; cbn; congruence). rewrite entry_moved by assumption. rewrite under_cross by assumption. now rewrite under_app.
  - intros q Q1 Q2. destruct q as [|x q]; [reflexivity|]. rewrite !nodeAt_entry by discriminate. rewrite entry_moved by assumption. now rewrite Q2, Q1.
Qed.

(** What the making of directories does *)
Lemma makeDirs_keeps : forall rest done d d' q n, makeDirs done rest d = Some d' -> nodeAt q d = Some n -> nodeAt q d' = Some n.
Proof.
  induction rest as [|x rest I]; intros done d d' q n M Q; cbn [makeDirs] in M; [now injection M as <-|].
  destruct (nodeAt (done ++ [x]) d) as [[]|] eqn:E; [exact (I _ _ _ _ _ M Q)|discriminate|]. apply (I _ _ _ q n M).
  destruct q as [|y q]; [exact Q|]. cbn [nodeAt entry] in *. destruct (same (done ++ [x]) (y :: q)) eqn:W; [|exact Q]. apply same_spec in W. rewrite W in E. cbn [nodeAt] in E. congruence.
Qed.
Lemma makeDirs_only : forall rest done d d' q, makeDirs done rest d = Some d' -> nodeAt q d = None -> under q (done ++ rest) = None -> nodeAt q d' = None.
Proof.
  induction rest as [|x rest I]; intros done d d' q M Q U; cbn [makeDirs] in M; [now injection M as <-|].
  assert (U2 : under q ((done ++ [x]) ++ rest) = None) by (rewrite <- app_assoc; exact U).
  destruct (nodeAt (done ++ [x]) d) as [[]|] eqn:E; [exact (I _ _ _ _ M Q U2)|discriminate|]. apply (I _ _ _ q M); [|exact U2].
  destruct q as [|y q]; [exact Q|]. cbn [nodeAt entry] in *. rewrite same_no; [exact Q|]. intros W. rewrite <- W, under_app in U2. discriminate.
Qed.

Lemma parentPath_sep : forall p, parentPath (withSeparator p) = withSeparator p.
Proof.
  assert (G : forall a, parentPath (a ++ [47]) = a ++ [47]).
  { induction a as [|c a I]; [reflexivity|]. cbn [app parentPath]. rewrite I. replace (existsb (Z.eqb 47) (c :: a ++ [47])) with true; [reflexivity|].
    symmetry. apply existsb_exists. exists 47. split; [right; apply in_or_app; right; now left|reflexivity]. }
  intros p. destruct (withSep_cases p) as [[-> _]|(a & ->)]; [reflexivity|apply G].
Qed.

Lemma root_place : forall name p, ~ In 0 p -> plain name -> place (getRootpath name (withSeparator p)) = place p ++ [name].
Proof.
  intros name p N P. unfold getRootpath. rewrite utf8_id.
  - rewrite place_full, parts_plain by apply P. cbn [fold_left]. now apply go_plain.
  - intros J. apply in_app_iff in J as [J|J]; [now apply (nozero_sep p)|now apply P].
Qed.
Lemma root_text : forall name p, ~ In 0 p -> plain name -> getRootpath name (withSeparator p) <> [].
Proof.
  intros name p N P. unfold getRootpath. rewrite utf8_id; [destruct P as (P & _); now destruct (withSeparator p), name|].
  intros J. apply in_app_iff in J as [J|J]; [now apply (nozero_sep p)|now apply P].
Qed.
