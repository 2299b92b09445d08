(** C115: the pieces that were begun. *)
From Verif Require Import Base LayoutModel ProgressModel DlModel LeftModel UnfModel UnfSpec.

Lemma ofPiece_app i a b : ofPiece i (a ++ b) = ofPiece i a ++ ofPiece i b.
Proof. apply filter_app. Qed.

Lemma load_spec i st : let '(p, st') := loadUnf i st in
  length st' = length st /\ psSize p + bytes st' = bytes st /\
  (forall j, j <> i -> ofPiece j st' = ofPiece j st) /\
  ((psSize p = 0 /\ ofPiece i st = [] /\ st' = st) \/ (psIndex p = i /\ psSize p <> 0 /\ ofPiece i st = p :: ofPiece i st')).
Proof.
  induction st as [|u st IH]; cbn [loadUnf]; [repeat split; auto|].
  destruct ((psIndex u =? i) && negb (psSize u =? 0)) eqn:C.
  - apply andb_prop in C. destruct C as [C1 C2]. apply Z.eqb_eq in C1. apply negb_true_iff, Z.eqb_neq in C2.
    split; [reflexivity|]. split; [cbn [bytes psSize]; lia|]. split.
    + intros j N. unfold ofPiece. cbn [filter psIndex psSize]. rewrite (proj2 (Z.eqb_neq (psIndex u) j)) by congruence. reflexivity.
    + right. split; [exact C1|]. split; [exact C2|]. unfold ofPiece. cbn [filter psIndex psSize]. rewrite C1, Z.eqb_refl, (proj2 (Z.eqb_neq _ _) C2). reflexivity.
  - destruct (loadUnf i st) as [p st']. destruct IH as (L & B & O & R). split; [cbn [length]; lia|]. split; [cbn [bytes]; lia|]. split.
    + intros j N. specialize (O j N). unfold ofPiece in *. cbn [filter]. rewrite O. reflexivity.
    + unfold ofPiece in *. cbn [filter]. rewrite C. destruct R as [(R1 & R2 & ->)|R]; [left; auto|right; exact R].
Qed.

Lemma run_once ops : ~ In UClear ops -> forall st i, let '(st', out) := urun ops st in ofPiece i out ++ ofPiece i st' = ofPiece i st ++ ofPiece i (added ops).
Proof.
  induction ops as [|o ops IH]; intros N st i; [cbn [urun added flat_map ofPiece filter app]; rewrite app_nil_r; reflexivity|].
  assert (N' : ~ In UClear ops) by (intros Q; apply N; right; exact Q). cbn [urun]. destruct o as [l|j|]; cbn [ustep].
  - specialize (IH N' (st ++ l) i). destruct (urun ops (st ++ l)) as [st2 out2]. cbn [app]. rewrite IH. change (added (UAdd l :: ops)) with (l ++ added ops). rewrite !ofPiece_app, app_assoc. reflexivity.
  - pose proof (load_spec j st) as Sp. destruct (loadUnf j st) as [p st1]. specialize (IH N' st1 i). destruct (urun ops st1) as [st2 out2].
    change (added (ULoad j :: ops)) with (added ops). rewrite ofPiece_app, <- app_assoc, IH. destruct Sp as (_ & _ & O & R).
    destruct R as [(R1 & R2 & ->)|(R1 & R2 & R3)].
    + unfold ofPiece at 1. cbn [filter]. rewrite R1. rewrite andb_false_r. reflexivity.
    + destruct (Z.eq_dec i j) as [->|Ne].
      * rewrite R3. unfold ofPiece at 1. cbn [filter]. rewrite R1, Z.eqb_refl, (proj2 (Z.eqb_neq _ _) R2). reflexivity.
      * rewrite (O i Ne). unfold ofPiece at 1. cbn [filter]. rewrite (proj2 (Z.eqb_neq (psIndex p) i)) by congruence. reflexivity.
  - exfalso. apply N. left. reflexivity.
Qed.

(** Each state with data that was added is handed out at most once, unchanged and in order, and until then it is there. *)
Theorem C115_once : forall ops st out i, ~ In UClear ops -> urun ops [] = (st, out) -> ofPiece i out ++ ofPiece i st = ofPiece i (added ops).
Proof. intros ops st out i N R. pose proof (run_once ops N [] i) as H. rewrite R in H. exact H. Qed.
Print Assumptions C115_once.

(** What was begun is found: a load gives the first state with data of that piece if there is one, and does not touch other pieces. *)
Theorem C115_found : forall i st p st', loadUnf i st = (p, st') ->
  (forall q rest, ofPiece i st = q :: rest -> p = q /\ ofPiece i st' = rest) /\ (ofPiece i st = [] -> psSize p = 0 /\ st' = st) /\
  (forall j, j <> i -> ofPiece j st' = ofPiece j st).
Proof.
  intros i st p st' L. pose proof (load_spec i st) as Sp. rewrite L in Sp. destruct Sp as (_ & _ & O & R). split; [|split].
  - intros q rest Q. destruct R as [(_ & R & _)|(_ & _ & R)]; rewrite Q in R; [discriminate|]. injection R as <- <-. auto.
  - intros Q. destruct R as [(R1 & _ & R2)|(_ & _ & R)]; [auto|rewrite Q in R; discriminate].
  - exact O.
Qed.
Print Assumptions C115_found.

(** Nothing is left after a clear. *)
Theorem C115_cleared : forall ops1 ops2, fst (urun (ops1 ++ UClear :: ops2) []) = fst (urun ops2 []).
Proof.
  intros ops1 ops2. generalize (@nil pieceState) at 1 as st. induction ops1 as [|o ops1 IH]; intros st.
  - cbn [app urun ustep]. destruct (urun ops2 []). reflexivity.
  - cbn [app urun]. destruct (ustep st o) as [st1 out1]. specialize (IH st1). destruct (urun (ops1 ++ UClear :: ops2) st1). exact IH.
Qed.
Print Assumptions C115_cleared.

Lemma bytes_app a b : bytes (a ++ b) = bytes a + bytes b.
Proof. induction a as [|x a IH]; [reflexivity|]. cbn [app bytes]. lia. Qed.
Lemma run_bytes ops : ~ In UClear ops -> forall st, let '(st', out) := urun ops st in bytes out + bytes st' = bytes st + bytes (added ops) /\ length st' = (length st + length (added ops))%nat.
Proof.
  induction ops as [|o ops IH]; intros N st; [cbn [urun added flat_map bytes length]; lia|].
  assert (N' : ~ In UClear ops) by (intros Q; apply N; right; exact Q). cbn [urun]. destruct o as [l|j|]; cbn [ustep].
  - specialize (IH N' (st ++ l)). destruct (urun ops (st ++ l)) as [st2 out2]. cbn [app]. change (added (UAdd l :: ops)) with (l ++ added ops). rewrite bytes_app, app_length in *. lia.
  - pose proof (load_spec j st) as Sp. destruct (loadUnf j st) as [p st1]. specialize (IH N' st1). destruct (urun ops st1) as [st2 out2].
    change (added (ULoad j :: ops)) with (added ops). destruct Sp as (L & B & _). cbn [app bytes]. lia.
  - exfalso. apply N. left. reflexivity.
Qed.

Lemma size_bytes l : forall s, 0 <= s -> Forall (fun p => 0 <= psSize p) l -> s + bytes l < 18446744073709551616 -> fold_left (fun s u => u64 (s + psSize u)) l s = s + bytes l.
Proof.
  induction l as [|p l IH]; intros s P F B; [cbn [fold_left bytes]; lia|]. inversion F as [|? ? Fp Fl]; subst. cbn [fold_left bytes] in *.
  assert (0 <= bytes l) by (clear - Fl; induction Fl; cbn [bytes]; lia).
  assert (U : u64 (s + psSize p) = s + psSize p) by (apply Z.mod_small; lia). rewrite U, IH by (assumption || lia). lia.
Qed.

Lemma run_sizes ops : forall st, Forall (fun p => 0 <= psSize p) st -> Forall (fun p => 0 <= psSize p) (added ops) ->
  Forall (fun p => 0 <= psSize p) (fst (urun ops st)) /\ Forall (fun p => 0 <= psSize p) (snd (urun ops st)).
Proof.
  induction ops as [|o ops IH]; intros st F A; [split; [exact F|constructor]|]. cbn [urun].
  assert (A' : Forall (fun p => 0 <= psSize p) (added ops)) by (destruct o; [apply Forall_app in A; apply A|exact A|exact A]).
  assert (F1 : Forall (fun p => 0 <= psSize p) (fst (ustep st o)) /\ Forall (fun p => 0 <= psSize p) (snd (ustep st o))).
  { destruct o as [l|j|]; cbn [ustep fst snd]; [split; [apply Forall_app; split; [exact F|apply Forall_app in A; apply A]|constructor]| |split; constructor].
    assert (G : 0 <= psSize (fst (loadUnf j st)) /\ Forall (fun p => 0 <= psSize p) (snd (loadUnf j st))).
    { clear - F. induction F as [|u st Fu F IHf]; cbn [loadUnf]; [split; [reflexivity|constructor]|].
      destruct (_ && _); [split; [exact Fu|constructor; [cbn [psSize]; lia|exact F]]|].
      destruct (loadUnf j st) as [p st']. cbn [fst snd] in *. split; [apply IHf|constructor; [exact Fu|apply IHf]]. }
    destruct (loadUnf j st) as [p st']. cbn [fst snd] in *. split; [apply G|constructor; [apply G|constructor]]. }
  destruct (ustep st o) as [st1 out1]. cbn [fst snd] in F1. destruct F1 as [F1 F2]. specialize (IH st1 F1 A'). destruct (urun ops st1) as [st2 out2]. cbn [fst snd] in *.
  split; [apply IH|apply Forall_app; split; [exact F2|apply IH]].
Qed.

(** The size that is reported and the bytes that were handed out are together the bytes that were added: none is counted twice. *)
Theorem C115_size : forall ops st out, ~ In UClear ops -> Forall (fun p => 0 <= psSize p) (added ops) -> bytes (added ops) < 18446744073709551616 ->
  urun ops [] = (st, out) -> bytes out + unfinishedSize st = bytes (added ops).
Proof.
  intros ops st out N F B R. pose proof (run_bytes ops N []) as H. rewrite R in H. destruct H as [H _]. cbn [bytes] in H.
  pose proof (run_sizes ops [] (Forall_nil _) F) as Fs. rewrite R in Fs. cbn [fst snd] in Fs. destruct Fs as [Fs Fo].
  assert (P : 0 <= bytes out) by (clear - Fo; induction Fo; cbn [bytes]; lia). unfold unfinishedSize. rewrite size_bytes by (assumption || lia). lia.
Qed.
Print Assumptions C115_size.

Lemma run_blocks ops : forall st, Forall (fun p => psSize p = 0 \/ psBlocks p <> []) st -> Forall (fun p => psSize p = 0 \/ psBlocks p <> []) (added ops) ->
  Forall (fun p => psSize p = 0 \/ psBlocks p <> []) (fst (urun ops st)).
Proof.
  induction ops as [|o ops IH]; intros st F A; [exact F|]. cbn [urun].
  assert (A' : Forall (fun p => psSize p = 0 \/ psBlocks p <> []) (added ops)) by (destruct o; [apply Forall_app in A; apply A|exact A|exact A]).
  assert (F1 : Forall (fun p => psSize p = 0 \/ psBlocks p <> []) (fst (ustep st o))).
  { destruct o as [l|j|]; cbn [ustep fst]; [apply Forall_app; split; [exact F|apply Forall_app in A; apply A]| |constructor].
    clear - F. induction F as [|u st Fu F IHf]; cbn [loadUnf]; [constructor|]. destruct (_ && _); [constructor; [left; reflexivity|exact F]|].
    destruct (loadUnf j st) as [p st']. cbn [fst] in *. constructor; assumption. }
  destruct (ustep st o) as [st1 out1]. specialize (IH st1 F1 A'). destruct (urun ops st1). exact IH.
Qed.

(** What was begun is still there after the state was saved and read back. *)
Theorem C115_saved : forall ops i, Forall (fun p => psSize p = 0 \/ psBlocks p <> []) (added ops) ->
  let st := fst (urun ops []) in ofPiece i (readBack (getState st)) = ofPiece i st.
Proof.
  intros ops i A st. pose proof (run_blocks ops [] (Forall_nil _) A) as F. fold st in F. clearbody st. unfold getState. induction F as [|p st Fp F IH]; [reflexivity|].
  unfold readBack, ofPiece in *. cbn [filter]. destruct (psBlocks p) as [|b bs] eqn:Eb.
  - destruct Fp as [Fp|Fp]; [|congruence]. rewrite Fp. rewrite andb_false_r. exact IH.
  - destruct (psSize p =? 0) eqn:Es; cbn [negb]; [rewrite andb_false_r; exact IH|]. cbn [filter]. rewrite Es, IH. reflexivity.
Qed.
Print Assumptions C115_saved.

(** Nothing is ever taken off the list: it has as many entries as were added, so stopping and starting again makes it longer each time, and what is
    saved has entries without data. *)
Theorem C115_entries_refuted : (forall ops st out, ~ In UClear ops -> urun ops [] = (st, out) -> length (getState st) = length (added ops)) /\
  forall p n, psSize p <> 0 -> exists st out, urun (concat (repeat [UAdd [p]; ULoad (psIndex p)] n)) [] = (st, out) /\ length (getState st) = n /\ Forall (fun q => psSize q = 0 /\ psBlocks q = []) st.
Proof.
  split.
  - intros ops st out N R. pose proof (run_bytes ops N []) as H. rewrite R in H. destruct H as [_ H]. exact H.
  - intros p n P. set (e := {| psBlocks := []; psRemaining := psRemaining p; psSize := 0; psIndex := psIndex p |}).
    assert (L : forall m, loadUnf (psIndex p) (repeat e m ++ [p]) = (p, repeat e m ++ [e])).
    { induction m as [|m IH]; cbn [repeat app loadUnf].
      - rewrite Z.eqb_refl, (proj2 (Z.eqb_neq _ _) P). reflexivity.
      - change (psSize e) with 0. rewrite andb_false_r, IH. reflexivity. }
    assert (G : forall n m, exists out, urun (concat (repeat [UAdd [p]; ULoad (psIndex p)] n)) (repeat e m) = (repeat e (m + n), out)).
    { clear n. induction n as [|n IH]; intros m; [exists []; rewrite Nat.add_0_r; reflexivity|]. cbn [repeat concat app urun ustep]. rewrite L.
      change [e] with (repeat e 1). rewrite <- repeat_app. destruct (IH (m + 1)%nat) as (out & E). rewrite E. exists ([p] ++ out). replace (m + S n)%nat with (m + 1 + n)%nat by lia. reflexivity. }
    destruct (G n 0%nat) as (out & E). exists (repeat e n), out. split; [exact E|]. split; [apply repeat_length|].
    apply Forall_forall. intros q Q. apply repeat_spec in Q. subst q. auto.
Qed.
Print Assumptions C115_entries_refuted.

(** Two pieces, one of them begun twice. *)
Example C115_sample : let a := {| psBlocks := [1; 0]; psRemaining := 1; psSize := 16384; psIndex := 4 |} in let b := {| psBlocks := [0; 1]; psRemaining := 1; psSize := 100; psIndex := 9 |} in
  let ops := [UAdd [a; b]; ULoad 9; ULoad 3; UAdd [b]; ULoad 4] in
  ofPiece 9 (snd (urun ops [])) = [b] /\ ofPiece 9 (fst (urun ops [])) = [b] /\ unfinishedSize (fst (urun ops [])) = 100 /\ ~ In UClear ops.
Proof. cbv zeta. split; [vm_compute; reflexivity|]. split; [vm_compute; reflexivity|]. split; [vm_compute; reflexivity|]. cbn [In]. intuition discriminate. Qed.
