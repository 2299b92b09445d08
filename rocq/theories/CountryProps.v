(** C94: the countries of connected peers. *)
From Verif Require Import Base BaseLemmas CountryModel CountrySpec CountryProofs.
From Coq Require Import Sorted.

Lemma answers rows a : list_ok rows -> 0 <= a < 4294967296 -> exists t, fromParser rows = Ok t /\ fromFile (Some (toFile t)) = Ok t /\
  (forall c, getFrom t a (indexOf a) = Ok c -> peerCountry t false (be 4 a) = Ok c) /\
  Forall2 (entry (countries t)) (nth (indexOf a) (buckets t) []) (collapse None (filter (fun r => (indexOf (fst r) =? indexOf a)%nat) rows)).
Proof.
  intros L A. destruct (fromParser_spec rows L) as (t & P1 & P2 & P3). exists t. split; [assumption|]. split; [now apply roundtrip|]. split.
  - intros c H. unfold peerCountry. rewrite firstn_all2 by (rewrite be_length; lia). rewrite unbe_be by exact A. exact H.
  - apply P3. destruct (indexOf_byte a A) as [-> ?]. lia.
Qed.

(** The tool makes a file from the list; the program reads it and names, for a peer at the address [a], the country of the range which holds
    it. Missing: the last country of each first byte ([C94_last_refuted]) and ranges that go on into the next first byte
    ([C94_first_byte_refuted]). *)
Theorem C94_found_partial : forall rows a r, list_ok rows -> 0 <= a < 4294967296 -> holds rows a r -> first_byte (fst r) = first_byte a -> changes_after rows a (snd r) ->
  exists t, fromParser rows = Ok t /\ fromFile (Some (toFile t)) = Ok t /\ peerCountry t false (be 4 a) = Ok (snd r).
Proof.
  intros rows a [s c] L A (before & after & E & B & F) FB (r' & R1 & R2 & R3 & R4). cbn [fst snd] in *. destruct (answers rows a L A) as (t & P1 & P2 & P3 & P4).
  exists t. split; [assumption|]. split; [assumption|]. apply P3. destruct L as (S & R & _).
  assert (RS : forall r, In r rows -> 0 <= fst r < 4294967296) by (intros r H; apply (proj1 (Forall_forall _ _) R r H)).
  rewrite E, filter_app in P4. cbn [filter fst] in P4.
  assert (I : (indexOf s =? indexOf a)%nat = true) by (apply indexOf_eq; [apply (RS (s, c)); rewrite E; apply in_elt|assumption|assumption]).
  rewrite I in P4. match type of P4 with Forall2 _ _ (collapse _ (?x ++ ?y :: ?z)) => change (x ++ y :: z) with (x ++ [y] ++ z) in P4; rewrite app_assoc in P4 end.
  rewrite E in S. apply sorted_split in S. cbn [fst] in S.
  eapply lookup_found; [exact P4| | |].
  - apply Forall_app. split; [|constructor; [exact B|constructor]]. apply Forall_filter. eapply Forall_impl; [|exact S]. cbn. intros; lia.
  - now apply Forall_filter.
  - exists r'. split; [|assumption]. apply filter_In. split; [|apply indexOf_eq; auto].
    rewrite E in R1. apply in_app_or in R1. destruct R1 as [H|[H|H]]; [|subst r'; cbn in R2; lia|assumption]. pose proof (proj1 (Forall_forall _ _) S r' H) as Q. cbn beta in Q. lia.
Qed.
Print Assumptions C94_found_partial.

(** Finding: the last country among the addresses with one first byte is never found. *)
Theorem C94_last_refuted : forall rows a r, list_ok rows -> 0 <= a < 4294967296 -> holds rows a r -> first_byte (fst r) = first_byte a -> ~ changes_after rows a (snd r) ->
  exists t, fromParser rows = Ok t /\ fromFile (Some (toFile t)) = Ok t /\ peerCountry t false (be 4 a) = Ok [].
Proof.
  intros rows a [s c] L A (before & after & E & B & F) FB N. cbn [fst snd] in *. destruct (answers rows a L A) as (t & P1 & P2 & P3 & P4).
  exists t. split; [assumption|]. split; [assumption|]. apply P3. destruct L as (S & R & _).
  assert (RS : forall r, In r rows -> 0 <= fst r < 4294967296) by (intros r H; apply (proj1 (Forall_forall _ _) R r H)).
  assert (N' : forall r, In r after -> (indexOf (fst r) =? indexOf a)%nat = true -> snd r = c).
  { intros r H1 H2. destruct (list_eqb (snd r) c) eqn:Q; [now apply list_eqb_spec|]. exfalso. apply N. exists r. assert (IR : In r rows) by (rewrite E; apply in_or_app; right; now right).
    split; [assumption|]. split; [exact (proj1 (Forall_forall _ _) F r H1)|]. split; [apply indexOf_eq; auto|]. intros Q2. rewrite Q2, list_eqb_refl in Q. discriminate. }
  rewrite E, filter_app in P4. cbn [filter fst] in P4.
  assert (I : (indexOf s =? indexOf a)%nat = true) by (apply indexOf_eq; [apply (RS (s, c)); rewrite E; apply in_elt|assumption|assumption]).
  rewrite I in P4. match type of P4 with Forall2 _ _ (collapse _ (?x ++ ?y :: ?z)) => change (x ++ y :: z) with (x ++ [y] ++ z) in P4; rewrite app_assoc in P4 end.
  rewrite E in S. apply sorted_split in S. cbn [fst] in S.
  eapply lookup_last; [exact P4| |].
  - apply Forall_app. split; [|constructor; [exact B|constructor]]. apply Forall_filter. eapply Forall_impl; [|exact S]. cbn. intros; lia.
  - apply Forall_forall. intros r H. apply filter_In in H. destruct H. auto.
Qed.
Print Assumptions C94_last_refuted.

(** Finding: nothing is found for an address whose range begins under a smaller first byte. *)
Theorem C94_first_byte_refuted : forall rows a r, list_ok rows -> 0 <= a < 4294967296 -> holds rows a r -> first_byte (fst r) <> first_byte a ->
  exists t, fromParser rows = Ok t /\ fromFile (Some (toFile t)) = Ok t /\ peerCountry t false (be 4 a) = Ok [].
Proof.
  intros rows a [s c] L A (before & after & E & B & F) FB. cbn [fst snd] in *. destruct (answers rows a L A) as (t & P1 & P2 & P3 & P4).
  exists t. split; [assumption|]. split; [assumption|]. apply P3. destruct L as (S & R & _).
  assert (RS : forall r, In r rows -> 0 <= fst r < 4294967296) by (intros r H; apply (proj1 (Forall_forall _ _) R r H)).
  assert (SR : 0 <= s < 4294967296) by (apply (RS (s, c)); rewrite E; apply in_elt).
  rewrite E, filter_app in P4. cbn [filter fst] in P4.
  destruct ((indexOf s =? indexOf a)%nat) eqn:I; [apply indexOf_eq in I; [contradiction|assumption|assumption]|].
  assert (Z0 : filter (fun r => (indexOf (fst r) =? indexOf a)%nat) before = []).
  { rewrite E in S. apply sorted_split in S. cbn [fst] in S. destruct (filter (fun r => (indexOf (fst r) =? indexOf a)%nat) before) as [|x l] eqn:Q; [reflexivity|]. exfalso.
    assert (IX : In x (x :: l)) by now left. rewrite <- Q in IX. apply filter_In in IX. destruct IX as [I1 I2]. apply indexOf_eq in I2; [|apply RS; rewrite E; apply in_or_app; now left|assumption].
    pose proof (proj1 (Forall_forall _ _) S x I1) as X. cbn beta in X. unfold first_byte in *. apply FB. apply Z.le_antisymm; [apply Z.div_le_mono; lia|]. rewrite <- I2. apply Z.div_le_mono; lia. }
  rewrite Z0 in P4. cbn [app] in P4. eapply lookup_before; [exact P4|]. now apply Forall_filter.
Qed.
Print Assumptions C94_first_byte_refuted.

(** An address before every range has no country. *)
Theorem C94_before : forall rows a, list_ok rows -> 0 <= a < 4294967296 -> Forall (fun r => a < fst r) rows ->
  exists t, fromParser rows = Ok t /\ fromFile (Some (toFile t)) = Ok t /\ peerCountry t false (be 4 a) = Ok [].
Proof.
  intros rows a L A F. destruct (answers rows a L A) as (t & P1 & P2 & P3 & P4). exists t. split; [assumption|]. split; [assumption|]. apply P3.
  eapply lookup_before; [exact P4|]. now apply Forall_filter.
Qed.
Print Assumptions C94_before.

(** A table is read from the file it was written to. Missing: names which are empty or hold a line break, and the country 17733
    ([C94_country_EE_refuted]). *)
Theorem C94_file_partial : forall t, table_ok t -> fromFile (Some (toFile t)) = Ok t.
Proof. exact roundtrip. Qed.
Print Assumptions C94_file_partial.

(** Whatever the address and the length to which the file was cut, a country or none is named: nothing is read or written out of place. *)
Theorem C94_cut_safe : forall t n a, table_ok t -> Forall (Forall (fun e => snd e < zlen (countries t))) (buckets t) ->
  exists t' c, fromFile (Some (firstn n (toFile t))) = Ok t' /\ getCountry t' a = Ok c.
Proof.
  intros t n a (T1 & T2 & T3) IX. unfold toFile. set (names := flat_map (fun c => c ++ [10]) (countries t)).
  destruct (Nat.le_gt_cases n (length names)) as [L|L].
  - rewrite firstn_app. replace (n - length names)%nat with 0%nat by lia. rewrite firstn_O, app_nil_r.
    destruct (readNames_cut (countries t) [] n T1 L) as (cs & Q). unfold fromFile. fold names in Q. rewrite Q.
    eexists. assert (M : exists c, getFrom {| countries := cs; buckets := buckets newTable |} a (indexOf a) = Ok c).
    { apply getFrom_safe. cbn [countries buckets newTable]. generalize 256%nat, (indexOf a). intros m k. revert k. induction m; intros [|k]; cbn; try constructor; auto. }
    destruct M as [c M]. exists c. split; [reflexivity|exact M].
  - rewrite firstn_app, firstn_all2 by lia. destruct (n - length names)%nat as [|n'] eqn:N; [lia|]. change (firstn (S n') ([10] ++ flat_map bucketBytes (buckets t))) with ([10] ++ firstn n' (flat_map bucketBytes (buckets t))).
    unfold fromFile. unfold names. rewrite readNames_all by assumption.
    destruct (buckets t) as [|b bs] eqn:E; [discriminate|]. cbn [length] in T2. inversion T3 as [|? ? T4 T5]; subst. inversion IX as [|? ? I1 I2]; subst.
    assert (FO : forall x, Forall (fun e => 0 <= fst e < 4294967296 /\ 0 <= snd e < 65536 /\ snd e <> 17733) x -> Forall (fun e : Z * Z => snd e < zlen (countries t)) x -> full_ok (zlen (countries t)) x).
    { intros x X1 X2. apply Forall_forall. intros e H. pose proof (proj1 (Forall_forall _ _) X1 e H) as Y1. pose proof (proj1 (Forall_forall _ _) X2 e H) as Y2. cbn beta in Y1, Y2. lia. }
    destruct (readEntries_cut (zlen (countries t)) bs [] T5) with (b := b) (cur := @nil (Z * Z)) (n := n') as (r & Q & W).
    { apply Forall_forall. intros x H. apply FO; [exact (proj1 (Forall_forall _ _) T5 x H)|exact (proj1 (Forall_forall _ _) I2 x H)]. }
    { exact T4. }
    { now apply FO. }
    assert (BE : buckets newTable = [] :: repeat [] (length bs)) by (injection T2 as ->; reflexivity). rewrite BE. cbn [flat_map length app] in *. unfold bucketBytes at 1. rewrite <- app_assoc. cbn [app]. rewrite Q. cbn [bind].
    eexists. assert (M : exists c, getFrom {| countries := countries t; buckets := r |} a (indexOf a) = Ok c).
    { apply getFrom_safe. cbn [countries buckets]. destruct (nth_in_or_default (indexOf a) r []) as [H| ->]; [|constructor]. exact (proj1 (Forall_forall _ _) W _ H). }
    destruct M as [c M]. exists c. split; [reflexivity|exact M].
Qed.
Print Assumptions C94_cut_safe.

(** Without the file no peer has a country. *)
Theorem C94_no_file : forall ipv6 addr, exists t, fromFile None = Ok t /\ peerCountry t ipv6 addr = Ok [].
Proof.
  intros ipv6 addr. exists newTable. split; [reflexivity|]. unfold peerCountry. destruct ipv6; [reflexivity|]. unfold getCountry, getFrom.
  assert (E : nth (indexOf (unbe (firstn 4 addr))) (buckets newTable) [] = []); [|rewrite E; reflexivity].
  cbn [buckets newTable]. generalize 256%nat, (indexOf (unbe (firstn 4 addr))). intros m k. revert k. induction m; intros [|k]; cbn; auto.
Qed.
Print Assumptions C94_no_file.

(** Finding: [toFile] and [fromFile] do not mean the same file for any folder. *)
Theorem C94_path_refuted : forall folder, writePath folder <> readPath folder.
Proof. intros folder H. apply app_inv_head in H. discriminate. Qed.
Print Assumptions C94_path_refuted.

(** Finding: an entry of the country 17733 ends its bucket when it is read back; with one in the first bucket and one in the last, the last is
    written out of the table. *)
Theorem C94_country_EE_refuted : forall c ip, name_ok c -> 0 <= ip < 4294967296 ->
  fromFile (Some (toFile {| countries := [c]; buckets := [(ip, 17733)] :: repeat [] 254 ++ [[(ip, 0)]] |})) = UB.
Proof.
  intros c ip C I. unfold fromFile, toFile. cbn [countries buckets]. rewrite readNames_all by (constructor; [assumption|constructor]).
  cbn [flat_map]. unfold bucketBytes at 1. cbn [flat_map fst snd]. rewrite app_nil_r, <- app_assoc, readEntries_one, !unle_le by (change (256 ^ Z.of_nat 4) with 4294967296; change (256 ^ Z.of_nat 2) with 65536; lia).
  unfold addEntry. change (17733 =? 17733) with true. cbv iota. cbn [bind fst snd].
  rewrite flat_map_app. set (bs := buckets newTable). assert (LB : length bs = 256%nat) by (unfold bs, newTable; cbn [buckets]; apply repeat_length).
  assert (ST : forall m k l, readEntries k bs (flat_map bucketBytes (repeat [] m) ++ l) = readEntries (m + k) bs l).
  { induction m as [|m IH]; intros k l; [reflexivity|]. cbn [repeat flat_map]. rewrite <- app_assoc. change (bucketBytes [] ++ flat_map bucketBytes (repeat [] m) ++ l) with ([69; 69; 69; 69; 69; 69] ++ flat_map bucketBytes (repeat [] m) ++ l).
    change (readEntries k bs ([69; 69; 69; 69; 69; 69] ++ flat_map bucketBytes (repeat [] m) ++ l)) with (readEntries (S k) bs (flat_map bucketBytes (repeat [] m) ++ l)). rewrite IH. f_equal. lia. }
  change (readEntries 1 bs ([69; 69; 69; 69; 69; 69] ++ flat_map bucketBytes (repeat [] 254) ++ flat_map bucketBytes [[(ip, 0)]])) with (readEntries 2 bs (flat_map bucketBytes (repeat [] 254) ++ flat_map bucketBytes [[(ip, 0)]])).
  rewrite ST. change (254 + 2)%nat with 256%nat. cbn [flat_map]. rewrite app_nil_r. unfold bucketBytes. cbn [flat_map fst snd]. rewrite app_nil_r, readEntries_one, !unle_le by (change (256 ^ Z.of_nat 4) with 4294967296; change (256 ^ Z.of_nat 2) with 65536; lia).
  unfold addEntry. change (0 =? 17733) with false. cbv iota. rewrite LB. reflexivity.
Qed.
Print Assumptions C94_country_EE_refuted.

(** Finding: bytes after the last bucket of a file are written out of the table. *)
Theorem C94_longer_file_refuted : forall t ip c, table_ok t -> 0 <= ip < 4294967296 -> 0 <= c < 65536 -> c <> 17733 ->
  fromFile (Some (toFile t ++ le 4 ip ++ le 2 c)) = UB.
Proof.
  intros t ip c (T1 & T2 & T3) I C N. unfold fromFile, toFile. rewrite <- !app_assoc. rewrite readNames_all by assumption.
  assert (G : forall bs d l, Forall (Forall (fun e => 0 <= fst e < 4294967296 /\ 0 <= snd e < 65536 /\ snd e <> 17733)) bs ->
    readEntries (length d) (d ++ repeat [] (length bs)) (flat_map bucketBytes bs ++ l) = readEntries (length d + length bs) (d ++ bs) l).
  { induction bs as [|b bs IH]; intros d l F; [cbn; now rewrite Nat.add_0_r|]. inversion F as [|? ? A F']; subst.
    cbn [flat_map length repeat]. unfold bucketBytes at 1. rewrite <- !app_assoc, readEntries_ranges by assumption. rewrite readEntries_end.
    cbn [app]. specialize (IH (d ++ [b]) l F'). rewrite app_length in IH. cbn [length] in IH. rewrite Nat.add_1_r, <- !app_assoc in IH. etransitivity; [exact IH|]. f_equal. lia. }
  specialize (G (buckets t) [] (le 4 ip ++ le 2 c) T3). rewrite T2 in G. cbn [length app Nat.add] in G. cbn [buckets newTable]. rewrite G.
  rewrite <- (app_nil_r (le 4 ip ++ le 2 c)), readEntries_one, !unle_le by (change (256 ^ Z.of_nat 4) with 4294967296; change (256 ^ Z.of_nat 2) with 65536; lia).
  unfold addEntry. destruct (Z.eqb_spec c 17733); [contradiction|]. rewrite T2. reflexivity.
Qed.
Print Assumptions C94_longer_file_refuted.

(** Finding: the number of a country in the file is not compared with the number of names. *)
Theorem C94_number_refuted : forall c n, name_ok c -> 1 <= n < 65536 -> n <> 17733 ->
  exists t, fromFile (Some (toFile t)) = Ok t /\ countries t = [c] /\ forall a, 5 <= a < 9 -> peerCountry t false (be 4 a) = UB.
Proof.
  intros c n C N E. exists {| countries := [c]; buckets := [(5, n); (9, n)] :: repeat [] 255 |}. split; [apply roundtrip|].
  - split; [constructor; [assumption|constructor]|]. split; [reflexivity|]. cbn [buckets]. constructor.
    + constructor; [cbn; lia|]. constructor; [cbn; lia|constructor].
    + apply Forall_forall. intros x H. apply repeat_spec in H. subst. constructor.
  - split; [reflexivity|]. intros a A. unfold peerCountry. rewrite firstn_all2 by (rewrite be_length; lia). rewrite unbe_be by (change (256 ^ Z.of_nat 4) with 4294967296; lia).
    unfold getCountry. assert (I : indexOf a = 0%nat) by (assert (H : a = 5 \/ a = 6 \/ a = 7 \/ a = 8) by lia; destruct H as [->|[->|[->| ->]]]; reflexivity). rewrite I.
    rewrite (getFrom_found _ a 0 [] (5, n) [(9, n)]); [|reflexivity|constructor; [cbn; lia|constructor]|constructor; [cbn; lia|constructor]|discriminate].
    cbn [countries snd]. destruct (nth_error [c] (Z.to_nat n)) eqn:Q; [|reflexivity]. assert (B : (Z.to_nat n < length [c])%nat) by (apply nth_error_Some; congruence). cbn in B. lia.
Qed.
Print Assumptions C94_number_refuted.

(** Two countries under the first byte 1, the second with two ranges, and one which goes from 2 to 3. *)
Definition someRows : list (Z * list Z) := [(16777216, [65]); (16777472, [66]); (16777728, [66]); (16778240, [65]); (33554432, [67])].

Lemma someRows_ok : list_ok someRows.
Proof.
  split; [repeat constructor|]. split; [repeat (constructor; [cbn; split; [lia|split; [discriminate|intros H; cbn in H; intuition lia]]|]); constructor|].
  exists [[65]; [66]; [67]]. split; [|split; [vm_compute; discriminate|]].
  - repeat constructor; cbn; intuition discriminate.
  - cbn. intuition (subst; cbn; auto).
Qed.

Example C94_meets : list_ok someRows /\ holds someRows 16777800 (16777728, [66]) /\ first_byte 16777728 = first_byte 16777800 /\ changes_after someRows 16777800 [66] /\
  holds someRows 16778300 (16778240, [65]) /\ ~ changes_after someRows 16778300 [65] /\ holds someRows 50331648 (33554432, [67]) /\ first_byte 33554432 <> first_byte 50331648.
Proof.
  split; [exact someRows_ok|]. split; [|split; [reflexivity|split; [|split; [|split; [|split]]]]].
  - exists [(16777216, [65]); (16777472, [66])], [(16778240, [65]); (33554432, [67])]. split; [reflexivity|]. split; [cbn; lia|]. repeat constructor.
  - exists (16778240, [65]). split; [cbn; auto|]. split; [cbn; lia|]. split; [reflexivity|discriminate].
  - exists [(16777216, [65]); (16777472, [66]); (16777728, [66])], [(33554432, [67])]. split; [reflexivity|]. split; [cbn; lia|]. repeat constructor.
  - intros (r & H & A & B & C). cbn in H. intuition (subst; cbn in *; try lia; try discriminate).
  - exists [(16777216, [65]); (16777472, [66]); (16777728, [66]); (16778240, [65])], []. split; [reflexivity|]. split; [cbn; lia|]. constructor.
  - discriminate.
Qed.

Example C94_meets_file : exists t, fromParser someRows = Ok t /\ table_ok t /\ Forall (Forall (fun e => snd e < zlen (countries t))) (buckets t) /\ nth 1 (buckets t) [] = [(16777216, 0); (16777472, 1); (16778240, 0)].
Proof.
  destruct (fromParser_spec someRows someRows_ok) as (t & E & T & F). exists t. split; [assumption|]. split; [assumption|]. split.
  - apply Forall_forall. intros b H. destruct (In_nth _ _ [] H) as (k & K & <-). destruct T as (_ & T & _). rewrite T in K. apply Forall_forall. intros e I.
    destruct (Forall2_in_l _ _ _ _ (F k K) I) as (r & _ & (_ & R & _)). lia.
  - vm_compute in E. injection E as <-. reflexivity.
Qed.
