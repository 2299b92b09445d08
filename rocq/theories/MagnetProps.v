(** C09: magnet links. *)
From Verif Require Import Base BaseLemmas HexSpec UrlSpec UrlModel UrlProofs Base32Spec MagnetModel MagnetSpec MagnetProofs.

(** A link of any parameters in any order, at least one of them a hash, gives the (last) hash, the
    (last) name, and all trackers in their order behind those known before. *)
Theorem C09_link : forall ps m, Forall param_ok ps -> hashes ps <> [] ->
  exists m', parseMagnetLink (link_of ps) m = Ok (m', true) /\
    mhash m' = last (hashes ps) [] /\ mname m' = last (names ps) (mname m) /\
    announceList m' = announceList m ++ trackers ps /\
    announce m' = match announceList m with [] => hd (announce m) (trackers ps) | _ => announce m end.
Proof.
  intros ps m F H. exists (fold_left after ps m). unfold parseMagnetLink, link_of.
  assert (L : (length (magnet ++ spell_all ps) = 8 + length (spell_all ps))%nat) by (rewrite app_length; reflexivity).
  destruct (Nat.ltb_spec (length (magnet ++ spell_all ps)) 8); [lia|].
  change (firstn 8 (magnet ++ spell_all ps)) with magnet. change (skipn 8 (magnet ++ spell_all ps)) with (spell_all ps). rewrite list_eqb_refl.
  rewrite linkLoop_ok by (try assumption; lia). cbn [bind orb].
  assert (E : existsb is_hash ps = true).
  { destruct (existsb is_hash ps) eqn:E; [reflexivity|]. exfalso. apply H. unfold hashes. clear -E. induction ps as [|p ps IH]; [reflexivity|]. cbn [existsb flat_map] in *.
    apply orb_false_iff in E. destruct E as [E1 E2]. rewrite (IH E2). destruct p; [discriminate|reflexivity..]. }
  rewrite E. split; [reflexivity|]. split; [|split; [apply fold_name|apply fold_trackers]].
  rewrite fold_hash. destruct (hashes ps) as [|x l]; [contradiction|]. now rewrite !last_front.
Qed.
Print Assumptions C09_link.

(** A hash alone, in any spelling, is accepted as well. *)
Theorem C09_plain_hash : forall t h m, hash_text t h -> firstn 8 t <> magnet ->
  exists m', parseMagnetLink t m = Ok (m', true) /\ mhash m' = h /\ announceList m' = announceList m.
Proof.
  intros t h m H N. exists (setHash h m). unfold parseMagnetLink.
  assert (L : (8 <= length t)%nat).
  { destruct H as [t' h' H L|t' h' B L H|t' h' L4 A H L]; [rewrite (hex_text_length _ _ H); lia| |lia]. rewrite <- (Forall2_same_length _ _ _ H), b32_20_length by assumption. lia. }
  destruct (Nat.ltb_spec (length t) 8); [lia|]. rewrite list_eqb_neq by assumption. cbn [bind]. rewrite (parseTorrentHash_ok _ _ H). cbn [bind]. auto.
Qed.
Print Assumptions C09_plain_hash.

(** A link without a hash is refused. *)
Theorem C09_without_hash : forall ps m, Forall param_ok ps -> hashes ps = [] -> Forall (fun c => 0 <= c < 128) (spell_all ps) ->
  exists m', parseMagnetLink (link_of ps) m = Ok (m', false) /\ mhash m' = mhash m.
Proof.
  intros ps m F H A. exists (fold_left after ps m). unfold parseMagnetLink, link_of.
  assert (L : (length (magnet ++ spell_all ps) = 8 + length (spell_all ps))%nat) by (rewrite app_length; reflexivity).
  destruct (Nat.ltb_spec (length (magnet ++ spell_all ps)) 8); [lia|].
  change (firstn 8 (magnet ++ spell_all ps)) with magnet. change (skipn 8 (magnet ++ spell_all ps)) with (spell_all ps). rewrite list_eqb_refl.
  rewrite linkLoop_ok by (try assumption; lia). cbn [bind orb].
  assert (E : existsb is_hash ps = false).
  { clear -H. induction ps as [|p ps IH]; [reflexivity|]. unfold hashes in H. cbn [flat_map] in H. apply app_eq_nil in H. destruct H as [H1 H2]. cbn [existsb]. rewrite (IH H2). destruct p; [discriminate|reflexivity..]. }
  rewrite E. assert (X : parseTorrentHash (magnet ++ spell_all ps) = Ok None).
  { unfold parseTorrentHash.
    rewrite base32decode_magnet.
    assert (P : (Nat.eqb (length (magnet ++ spell_all ps)) 32 && Nat.eqb (length (if Nat.eqb (length (magnet ++ spell_all ps)) 32 then [] else @nil Z)) 20)%bool = false)
      by (destruct (Nat.eqb (length (magnet ++ spell_all ps)) 32); reflexivity).
    rewrite P. assert (DH : forall s, In 109 s -> HexModel.decodeHexa s 20 = Ok None).
    { intros s Hs. unfold HexModel.decodeHexa. destruct (forallb HexModel.hexCharOk s) eqn:Q; [|reflexivity]. rewrite forallb_forall in Q. specialize (Q 109 Hs). discriminate. }
    destruct (Nat.eqb (length (magnet ++ spell_all ps)) 44).
    - unfold dropSpaces. assert (Y : forallb (fun c => c <? 128) (magnet ++ spell_all ps) = true).
      { rewrite forallb_app. apply andb_true_iff. split; [reflexivity|]. apply forallb_forall. rewrite Forall_forall in A. intros c Hc. apply Z.ltb_lt. now apply A. }
      rewrite Y. cbn [bind]. destruct (Nat.eqb (length _) 40); [|reflexivity]. apply DH. apply filter_In. split; [now left|reflexivity].
    - cbn [bind]. destruct (Nat.eqb _ 40); [|reflexivity]. apply DH. now left. }
  rewrite X. cbn [bind]. split; [reflexivity|]. rewrite fold_hash, H. reflexivity.
Qed.
Print Assumptions C09_without_hash.

Example C09_meets : let h := repeat 171 20 in
  let t := base32_text false h in
  let ps := [Name [97; 43; 37; 50; 54] [97; 32; 38]; Hash t h; Tracker [117; 61; 49] [117; 61; 49]; Other [120; 108] [53]; Tracker [118] [118]] in
  Forall param_ok ps /\ hashes ps = [h] /\ names ps = [[97; 32; 38]] /\ trackers ps = [[117; 61; 49]; [118]].
Proof.
  cbn zeta. split; [|auto]. constructor; [|constructor; [|constructor; [|constructor; [|constructor; [|constructor]]]]]; cbn [param_ok].
  - split; [|unfold no_char; cbn; intuition lia]. apply ut_plain; [lia|lia|]. apply ut_plus. change 38 with (2 * 16 + 6).
    apply ut_escape; [apply (hd_num 2); lia|apply (hd_num 6); lia|constructor].
  - apply hash_base32; [apply Forall_forall; intros x Hx; apply repeat_spec in Hx; subst; unfold is_byte; lia|reflexivity|].
    generalize (base32_text false (repeat 171 20)). intros l. induction l; constructor; [now left|assumption].
  - split; [|unfold no_char; cbn; intuition lia]. repeat (apply ut_plain; [lia|lia|]). constructor.
  - unfold no_char. repeat split; cbn; try (intuition lia); discriminate.
  - split; [|unfold no_char; cbn; intuition lia]. repeat (apply ut_plain; [lia|lia|]). constructor.
Qed.

(** Finding: a bad escape in the first tracker or the name uses an uninitialised variable. *)
Theorem C09_bad_escape_refuted : forall c1 c2 rest m, scanHex2 [c1; c2] = None -> no_char 38 (c1 :: c2 :: rest) ->
  parseMagnetLink (magnet ++ tr ++ [61] ++ 37 :: c1 :: c2 :: rest) m = UB.
Proof.
  intros c1 c2 rest m H N. unfold parseMagnetLink. destruct (Nat.ltb_spec (length (magnet ++ tr ++ [61] ++ 37 :: c1 :: c2 :: rest)) 8); [rewrite app_length in *; cbn [magnet length] in *; lia|].
  change (firstn 8 (magnet ++ tr ++ [61] ++ 37 :: c1 :: c2 :: rest)) with magnet. rewrite list_eqb_refl. change (skipn 8 (magnet ++ tr ++ [61] ++ 37 :: c1 :: c2 :: rest)) with (tr ++ [61] ++ 37 :: c1 :: c2 :: rest).
  assert (X : tr ++ [61] ++ 37 :: c1 :: c2 :: rest = 116 :: (114 :: 61 :: 37 :: c1 :: c2 :: rest)) by reflexivity.
  destruct (length (magnet ++ tr ++ [61] ++ 37 :: c1 :: c2 :: rest)) as [|fuel]; [lia|]. rewrite X. cbn [linkLoop].
  rewrite cut_none by (unfold no_char in N; cbn in N |- *; intuition lia). rewrite <- X. change (tr ++ [61] ++ 37 :: c1 :: c2 :: rest) with (tr ++ 61 :: (37 :: c1 :: c2 :: rest)).
  rewrite cut_some by (cbn; intuition lia). unfold parameter. change (list_eqb tr xt) with false. cbn [andb]. change (list_eqb tr tr) with true. rewrite UrlDecode_bad_first by assumption. reflexivity.
Qed.
Print Assumptions C09_bad_escape_refuted.

Example C09_bad_escape_meets : scanHex2 [122; 122] = None.
Proof. reflexivity. Qed.
