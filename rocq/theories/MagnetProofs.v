From Verif Require Import Base BaseLemmas HexModel HexSpec HexProofs UrlModel UrlSpec UrlProofs Base32Model Base32Spec Base32Proofs MagnetModel MagnetSpec.

Lemma hex_text_length t h : hex_text t h -> length t = (2 * length h)%nat.
Proof. induction 1; cbn [length]; lia. Qed.

Lemma Forall2_same_length {A B} (R : A -> B -> Prop) a b : Forall2 R a b -> length a = length b.
Proof. induction 1; cbn; congruence. Qed.

Lemma b32_20_length h : length h = 20%nat -> length (base32_text false h) = 32%nat.
Proof.
  intros H. do 20 (destruct h as [|? h]; [discriminate H|]). destruct h; [|discriminate H]. reflexivity.
Qed.

Lemma parseTorrentHash_ok t h : hash_text t h -> parseTorrentHash t = Ok (Some h).
Proof.
  intros [t' h' H L|t' h' B L H|t' h' L4 A H L]; unfold parseTorrentHash.
  - pose proof (hex_text_length _ _ H) as Lt. rewrite L in Lt. rewrite Lt. cbn [Nat.eqb Nat.mul Nat.add andb bind]. rewrite Lt. cbn [Nat.eqb Nat.mul Nat.add].
    rewrite <- L. now apply decodeHexa_exact.
  - pose proof (Forall2_same_length _ _ _ H) as Lt. rewrite b32_20_length in Lt by assumption. rewrite <- Lt. cbn [Nat.eqb].
    rewrite (base32decode_text_case false h') by assumption. rewrite L. reflexivity.
  - rewrite L4. cbn [Nat.eqb andb]. unfold dropSpaces.
    assert (X : forallb (fun c => c <? 128) t' = true) by (apply forallb_forall; rewrite Forall_forall in A; intros c Hc; apply Z.ltb_lt; auto). rewrite X. cbn [bind].
    change (filter (fun c => negb (isSpace c)) t') with (filter (fun c => negb (white c)) t').
    pose proof (hex_text_length _ _ H) as Lt. rewrite L in Lt. rewrite Lt. cbn [Nat.eqb Nat.mul Nat.add]. rewrite <- L. now apply decodeHexa_exact.
Qed.

Lemma cut_none c s : ~ In c s -> cut c s = (s, None).
Proof.
  induction s as [|x s IH]; intros H; [reflexivity|]. cbn [cut]. destruct (Z.eqb_spec x c) as [->|N]; [exfalso; apply H; now left|].
  rewrite IH; [reflexivity|]. intros Q. apply H. now right.
Qed.

Lemma cut_some c a b : ~ In c a -> cut c (a ++ c :: b) = (a, Some b).
Proof.
  induction a as [|x a IH]; intros H; cbn [app cut]; [now rewrite Z.eqb_refl|]. destruct (Z.eqb_spec x c) as [->|N]; [exfalso; apply H; now left|].
  rewrite IH; [reflexivity|]. intros Q. apply H. now right.
Qed.

Lemma list_eqb_neq a b : a <> b -> list_eqb a b = false.
Proof. intros H. destruct (list_eqb a b) eqn:E; [|reflexivity]. apply list_eqb_spec in E. contradiction. Qed.

Lemma hex_no38 t h : hex_text t h -> ~ In 38 t.
Proof.
  induction 1 as [|c1 c2 d1 d2 t l H1 H2 H IH]; [intros []|]. intros [Q|[Q|Q]]; [subst c1; inversion H1; lia|subst c2; inversion H2; lia|contradiction].
Qed.

Lemma hash_no38 t h : hash_text t h -> ~ In 38 t.
Proof.
  intros [t' h' H L|t' h' B L H|t' h' L4 A H L].
  - now apply (hex_no38 _ h').
  - intros Q. assert (X : exists c, In c (base32_text false h') /\ same_letter c 38).
    { clear -H Q. induction H as [|a b l l' H1 H2 IH]; [inversion Q|]. destruct Q as [<-|Q]; [exists a; split; [now left|assumption]|]. destruct (IH Q) as (c & C1 & C2). exists c. split; [now right|assumption]. }
    destruct X as (c & C1 & C2). assert (c = 38) by (destruct C2 as [->|[? ?]]; lia). subst c. clear H Q C2.
    unfold base32_text in C1. revert C1. generalize (length h') at 1. intros n. clear L B. revert h'. induction n as [|n IH]; intros l Q; [destruct l; inversion Q|].
    destruct l as [|x l]; [inversion Q|]. cbn [b32_encode] in Q. apply in_app_or in Q. destruct Q as [Q|Q]; [|now apply IH in Q].
    unfold b32_group in Q. apply in_app_or in Q. destruct Q as [Q|[]]. apply in_map_iff in Q. destruct Q as (k & Q & _). unfold b32_char in Q.
    match type of Q with (if ?d <? 26 then _ else _) = _ => assert (0 <= d) by (unfold b32_digit; apply Z.mod_pos_bound; lia); destruct (Z.ltb_spec d 26); lia end.
  - intros Q. apply (hex_no38 _ _ H). apply filter_In. split; [assumption|reflexivity].
Qed.

Lemma spell_no38 p : param_ok p -> ~ In 38 (spell p).
Proof.
  destruct p as [t h|t u|t n|n v]; cbn [param_ok spell]; intros H.
  - apply hash_no38 in H. cbn. intuition lia.
  - destruct H as [_ H]. unfold no_char in H. cbn. intuition lia.
  - destruct H as [_ H]. unfold no_char in H. cbn. intuition lia.
  - destruct H as (H1 & H2 & H3 & _). unfold no_char in *. intros Q. apply in_app_or in Q. destruct Q as [Q|[Q|Q]]; [contradiction|lia|contradiction].
Qed.

(** The metadata after one parameter. *)
Definition after (m : metadata) (p : param) : metadata :=
  match p with
  | Hash _ h => setHash h m
  | Tracker _ u => {| mhash := mhash m; mname := mname m; announce := match announceList m with [] => u | _ => announce m end; announceList := announceList m ++ [u] |}
  | Name _ n => setName n m
  | Other _ _ => m
  end.
Definition is_hash (p : param) : bool := match p with Hash _ _ => true | _ => false end.

Lemma hash_text_length t h : hash_text t h -> (0 < length t)%nat.
Proof.
  intros [t' h' H L|t' h' B L H|t' h' L4 A H L]; [rewrite (hex_text_length _ _ H); lia| |lia].
  rewrite <- (Forall2_same_length _ _ _ H), b32_20_length by assumption. lia.
Qed.

Lemma one_param p m c : param_ok p -> match cut 61 (spell p) with (name, Some value) => parameter name value m c | (_, None) => Ok (m, c) end = Ok (after m p, c || is_hash p).
Proof.
  intros H. destruct p as [t h|t u|t n|n v]; cbn [spell after is_hash param_ok] in *.
  - change (xt ++ [61] ++ btih ++ t) with (xt ++ 61 :: (btih ++ t)). rewrite cut_some by (cbn; intuition lia). unfold parameter.
    rewrite list_eqb_refl. pose proof (hash_text_length _ _ H). destruct (Nat.ltb_spec 9 (length (btih ++ t))); [|rewrite app_length in *; cbn [btih length] in *; lia].
    change (firstn 9 (btih ++ t)) with btih. rewrite list_eqb_refl. cbn [andb]. change (skipn 9 (btih ++ t)) with t. rewrite (parseTorrentHash_ok _ _ H). cbn [bind]. now rewrite orb_true_r.
  - destruct H as [H _]. change (tr ++ [61] ++ t) with (tr ++ 61 :: t). rewrite cut_some by (cbn; intuition lia). unfold parameter. change (list_eqb tr xt) with false. cbn [andb].
    change (list_eqb tr tr) with true. rewrite (UrlDecode_text _ _ H). cbn [bind]. now rewrite orb_false_r.
  - destruct H as [H _]. change (dn ++ [61] ++ t) with (dn ++ 61 :: t). rewrite cut_some by (cbn; intuition lia). unfold parameter. change (list_eqb dn xt) with false. cbn [andb].
    change (list_eqb dn tr) with false. change (list_eqb dn dn) with true. rewrite (UrlDecode_text _ _ H). cbn [bind]. now rewrite orb_false_r.
  - destruct H as (H1 & H2 & H3 & H4 & H5 & H6). change (n ++ [61] ++ v) with (n ++ 61 :: v). rewrite cut_some by assumption. unfold parameter.
    rewrite (list_eqb_neq _ _ H4), (list_eqb_neq _ _ H5), (list_eqb_neq _ _ H6). cbn [andb]. now rewrite orb_false_r.
Qed.

Lemma spell_all_cons p q ps : spell_all (p :: q :: ps) = spell p ++ 38 :: spell_all (q :: ps).
Proof. reflexivity. Qed.

Lemma spell_nonempty p : spell p <> [].
Proof. destruct p; cbn; try discriminate. destruct name; discriminate. Qed.

Lemma linkLoop_ok ps : forall fuel m c, Forall param_ok ps -> (length (spell_all ps) <= fuel)%nat ->
  linkLoop fuel (spell_all ps) m c = Ok (fold_left after ps m, c || existsb is_hash ps).
Proof.
  induction ps as [|p ps IH]; intros fuel m c F L.
  - cbn. rewrite orb_false_r. destruct fuel; reflexivity.
  - inversion F as [|? ? Fp Fps]; subst. destruct ps as [|q ps].
    + cbn [spell_all] in *. destruct (spell p) as [|x s] eqn:E; [now apply spell_nonempty in E|]. destruct fuel as [|fuel]; [cbn in L; lia|]. cbn [linkLoop].
      rewrite <- E, cut_none by now apply spell_no38. rewrite one_param by assumption. cbn [bind fold_left existsb]. now rewrite orb_false_r.
    + rewrite spell_all_cons in *. rewrite app_length in L. cbn [length] in L.
      assert (NE : spell p ++ 38 :: spell_all (q :: ps) <> []) by (destruct (spell p); discriminate).
      destruct (spell p ++ 38 :: spell_all (q :: ps)) as [|x s] eqn:E; [contradiction|]. destruct fuel as [|fuel]; [lia|]. cbn [linkLoop].
      rewrite <- E, cut_some by now apply spell_no38. rewrite one_param by assumption. cbn [bind]. rewrite IH; [|assumption|lia]. cbn [fold_left existsb]. destruct c, (is_hash p), (is_hash q), (existsb is_hash ps); reflexivity.
Qed.

Lemma last_front {A} (l : list A) : forall x d, last (x :: l) d = last l x.
Proof.
  induction l as [|y l IH]; intros x d; [reflexivity|]. change (last (x :: y :: l) d) with (last (y :: l) d). now rewrite !IH.
Qed.

Lemma fold_hash ps : forall m, mhash (fold_left after ps m) = last (hashes ps) (mhash m).
Proof.
  induction ps as [|p ps IH]; intros m; [reflexivity|]. cbn [fold_left]. rewrite IH. unfold hashes. cbn [flat_map]. fold (hashes ps).
  destruct p; cbn [after app mhash setHash setName]; try reflexivity. symmetry. apply last_front.
Qed.

Lemma fold_name ps : forall m, mname (fold_left after ps m) = last (names ps) (mname m).
Proof.
  induction ps as [|p ps IH]; intros m; [reflexivity|]. cbn [fold_left]. rewrite IH. unfold names. cbn [flat_map]. fold (names ps).
  destruct p; cbn [after app mname setHash setName]; try reflexivity. symmetry. apply last_front.
Qed.

Lemma fold_trackers ps : forall m, announceList (fold_left after ps m) = announceList m ++ trackers ps /\
  announce (fold_left after ps m) = match announceList m with [] => hd (announce m) (trackers ps) | _ => announce m end.
Proof.
  induction ps as [|p ps IH]; intros m.
  - cbn. rewrite app_nil_r. split; [reflexivity|]. now destruct (announceList m).
  - cbn [fold_left]. destruct (IH (after m p)) as [I1 I2]. rewrite I1, I2. unfold trackers. cbn [flat_map]. fold (trackers ps).
    destruct p; cbn [after app announceList announce setHash setName hd]; try (split; reflexivity).
    rewrite <- app_assoc. split; [reflexivity|]. destruct (announceList m); reflexivity.
Qed.

Lemma base32decode_magnet s : base32decode (magnet ++ s) = [].
Proof.
  unfold base32decode. assert (L : length (magnet ++ s) = S (7 + length s)) by (rewrite app_length; reflexivity).
  rewrite L. cbn [b32Loop]. assert (A : Nat.min 8 (length (magnet ++ s)) = 8%nat) by lia. rewrite A.
  change (firstn 8 (magnet ++ s)) with magnet.
  assert (G : b32Group magnet 0 (if (8 <? 8)%nat then Z.of_nat 8 else 0) = None) by (vm_compute; reflexivity).
  rewrite G. reflexivity.
Qed.
