(** C44: peer exchange (BEP 11). *)
From Coq Require Import Sorted.
From Verif Require Import Base BaseLemmas Dec DecLemmas PacketModel PacketProofs AddrModel AddrSpec AddrProofs BencodeModel BencodeSpec BencodeProofs HttpProps PexModel PexProofs.

(** ** The messages of BEP 11 *)

(** A dictionary with "added", "added.f" and "dropped", the lists only if not empty. *)
Definition pex_dict (added : list addr) (flags : list Z) (dropped : list addr) : list (list Z * bval) :=
  match added with [] => [] | _ => [([97;100;100;101;100], BStr (compact added)); ([97;100;100;101;100;46;102], BStr flags)] end ++
  match dropped with [] => [] | _ => [([100;114;111;112;112;101;100], BStr (compact dropped))] end.

(** An extended message: length, 20, the number of the extension, the dictionary. *)
Definition extended (mid : Z) (body : list Z) : list Z := be 4 (zlen (20 :: mid :: body)) ++ 20 :: mid :: body.

Definition pex_text (added : list addr) (flags : list Z) (dropped : list addr) : list Z :=
  match added, dropped with [], [] => [] | _, _ => extended 0 (bencode (BDict (pex_dict added flags dropped))) end.

Lemma setSizeHeader_ok x0 x1 x2 x3 body : zlen body < 4294967296 -> setSizeHeader (x0 :: x1 :: x2 :: x3 :: body) = Ok (be 4 (zlen body) ++ body).
Proof.
  intros H. pose proof (zlen_nonneg body). unfold setSizeHeader. assert (Z4 : zlen (x0 :: x1 :: x2 :: x3 :: body) = 4 + zlen body) by (unfold zlen; cbn [length]; lia).
  rewrite Z4. replace (4 + zlen body <? 4) with false by lia. rewrite addN_be. unfold u32. rewrite Z.mod_small by lia. cbn [app skipn].
  replace (4 + zlen body - 4) with (zlen body) by lia. reflexivity.
Qed.

Lemma decDigits_length f : forall n, (length (decDigits f n) <= f)%nat.
Proof. induction f as [|f IH]; intros n; [reflexivity|]. cbn [decDigits]. destruct (n <? 10); [cbn; lia|]. rewrite app_length. specialize (IH (n / 10)). cbn [length]. lia. Qed.

Lemma toString_digits n : 0 <= n < 4294967296 -> zlen (toString n) <= 32.
Proof.
  intros H. unfold toString, zlen. pose proof (decDigits_length (S (Z.to_nat (Z.log2 n))) n) as L.
  assert (Z.log2 n <= 31); [|pose proof (Z.log2_nonneg n); lia].
  destruct (Z.eq_dec n 0) as [->|]; [cbn; lia|]. pose proof (proj1 (Z.log2_lt_pow2 n 32 ltac:(lia))). lia.
Qed.

Lemma pex_dict_ok added flags dropped : Forall ok4 added -> Forall ok4 dropped -> bytes_ok flags -> bval_ok (BDict (pex_dict added flags dropped)).
Proof.
  intros A D F. pose proof (compact_bytes _ A). pose proof (compact_bytes _ D).
  assert (forall t, Forall is_byte t -> bytes_ok t) by auto.
  destruct added, dropped; cbn [pex_dict app bval_ok map fold_right fst snd]; repeat split; try assumption; repeat constructor; unfold is_byte; lia.
Qed.

Lemma createPex_text added flags dropped off1 : length flags = length added -> zlen (bencode (BDict (pex_dict added flags dropped))) < 4294967000 ->
  exists o0 o1, createPex added flags dropped off1 = Ok (pex_text added flags dropped, o0, o1) /\
   match dropped with
   | [] => o0 = 0 /\ o1 = off1
   | _ => o0 = 6 + (zlen (bencode (BDict (pex_dict added flags []))) - 1) /\ o1 = 6 + (zlen (bencode (BDict (pex_dict added flags dropped))) - 1)
   end.
Proof.
  intros L S. unfold createPex, rawItem, addText, addRawData, startMap, endMap. rewrite !toDatas_compact.
  replace (zlen flags =? zlen added) with true by (unfold zlen; rewrite L; symmetry; apply Z.eqb_refl).
  destruct added as [|a added].
  - destruct dropped as [|d dropped].
    + eexists 0, off1. split; [|auto]. reflexivity.
    + set (X := toString (zlen (compact (d :: dropped))) ++ [58] ++ compact (d :: dropped)).
      assert (EB : bencode (BDict (pex_dict [] flags (d :: dropped))) = [100] ++ (kDropped ++ X) ++ [101]).
      { cbn [pex_dict app bencode map concat fst snd]. change (toString (zlen [100;114;111;112;112;101;100])) with [55]. unfold X, kDropped. cbn [app]. rewrite !app_nil_r, <- ?app_assoc. reflexivity. }
      rewrite EB in *.
      cbn [repeat app]. match goal with |- context [setSizeHeader ?l] => replace l with (0 :: 0 :: 0 :: 0 :: (20 :: 0 :: ([100] ++ (kDropped ++ X) ++ [101]))) by (unfold X; cbn [app]; rewrite <- ?app_assoc; reflexivity) end.
      assert (Z2 : zlen (20 :: 0 :: [100] ++ (kDropped ++ X) ++ [101]) = 2 + zlen ([100] ++ (kDropped ++ X) ++ [101])) by (unfold zlen; cbn [length app]; lia).
      rewrite setSizeHeader_ok by lia. cbn [bind]. eexists _, _. split.
      * f_equal. f_equal. f_equal. assert (N : zlen (be 4 (zlen (20 :: 0 :: [100] ++ (kDropped ++ X) ++ [101])) ++ 20 :: 0 :: [100] ++ (kDropped ++ X) ++ [101]) =? 8 = false).
        { rewrite zlen_app, Z2. unfold zlen at 1. rewrite be_length. rewrite !zlen_app. pose proof (zlen_nonneg X). change (zlen [100]) with 1. change (zlen kDropped) with 9. change (zlen [101]) with 1. lia. }
        rewrite N. unfold pex_text, extended. rewrite EB. reflexivity.
      * split; [reflexivity|]. unfold u32; unfold zlen in *; unfold X, kDropped in *; rewrite ?app_length in *; cbn [length] in *; rewrite ?app_length in *; cbn [length] in *; rewrite Z.mod_small; lia.
  - set (XA := toString (zlen (compact (a :: added))) ++ [58] ++ compact (a :: added)). set (XF := toString (zlen flags) ++ [58] ++ flags).
    assert (ED : bencode (BDict (pex_dict (a :: added) flags [])) = [100] ++ (kAdded ++ XA ++ kAddedF ++ XF) ++ [101]).
    { cbn [pex_dict app bencode map concat fst snd]. change (toString (zlen [97;100;100;101;100])) with [53]. change (toString (zlen [97;100;100;101;100;46;102])) with [55].
      unfold XA, XF, kAdded, kAddedF. cbn [app]. rewrite !app_nil_r, <- ?app_assoc. cbn [app]. rewrite <- ?app_assoc. reflexivity. }
    destruct dropped as [|d dropped].
    + rewrite ED in S. cbn [repeat app]. match goal with |- context [setSizeHeader ?l] => replace l with (0 :: 0 :: 0 :: 0 :: (20 :: 0 :: ([100] ++ (kAdded ++ XA ++ kAddedF ++ XF) ++ [101]))) by (unfold XA, XF; cbn [app]; rewrite <- ?app_assoc; cbn [app]; rewrite <- ?app_assoc; reflexivity) end.
      set (B := [100] ++ (kAdded ++ XA ++ kAddedF ++ XF) ++ [101]) in *.
      assert (Z2 : zlen (20 :: 0 :: B) = 2 + zlen B) by (unfold zlen; cbn [length app]; lia).
      rewrite setSizeHeader_ok by lia. cbn [bind]. eexists _, _. split; [|split; reflexivity].
      f_equal. f_equal. f_equal. assert (N : zlen (be 4 (zlen (20 :: 0 :: B)) ++ 20 :: 0 :: B) =? 8 = false).
      { rewrite zlen_app, Z2. unfold zlen at 1. rewrite be_length. unfold B. rewrite !zlen_app. pose proof (zlen_nonneg XA). pose proof (zlen_nonneg XF).
        change (zlen [100]) with 1. change (zlen kAdded) with 7. change (zlen kAddedF) with 9. change (zlen [101]) with 1. lia. }
      rewrite N. unfold pex_text, extended. rewrite ED. reflexivity.
    + set (X := toString (zlen (compact (d :: dropped))) ++ [58] ++ compact (d :: dropped)).
      assert (EB : bencode (BDict (pex_dict (a :: added) flags (d :: dropped))) = [100] ++ (kAdded ++ XA ++ kAddedF ++ XF ++ kDropped ++ X) ++ [101]).
      { cbn [pex_dict app bencode map concat fst snd]. change (toString (zlen [97;100;100;101;100])) with [53]. change (toString (zlen [97;100;100;101;100;46;102])) with [55].
        change (toString (zlen [100;114;111;112;112;101;100])) with [55]. unfold X, XA, XF, kAdded, kAddedF, kDropped. cbn [app]. rewrite !app_nil_r, <- ?app_assoc. cbn [app]. rewrite <- ?app_assoc. cbn [app]. reflexivity. }
      rewrite EB, ED in *.
      cbn [repeat app]. match goal with |- context [setSizeHeader ?l] => replace l with (0 :: 0 :: 0 :: 0 :: (20 :: 0 :: ([100] ++ (kAdded ++ XA ++ kAddedF ++ XF ++ kDropped ++ X) ++ [101])))
        by (unfold X, XA, XF; cbn [app]; rewrite <- ?app_assoc; cbn [app]; rewrite <- ?app_assoc; cbn [app]; rewrite <- ?app_assoc; reflexivity) end.
      set (B := [100] ++ (kAdded ++ XA ++ kAddedF ++ XF ++ kDropped ++ X) ++ [101]) in *.
      assert (Z2 : zlen (20 :: 0 :: B) = 2 + zlen B) by (unfold zlen; cbn [length app]; lia).
      rewrite setSizeHeader_ok by lia. cbn [bind]. eexists _, _. split.
      * f_equal. f_equal. f_equal. assert (N : zlen (be 4 (zlen (20 :: 0 :: B)) ++ 20 :: 0 :: B) =? 8 = false).
        { rewrite zlen_app, Z2. unfold zlen at 1. rewrite be_length. unfold B. rewrite !zlen_app. pose proof (zlen_nonneg XA). pose proof (zlen_nonneg XF). pose proof (zlen_nonneg X).
          change (zlen [100]) with 1. change (zlen kAdded) with 7. change (zlen kAddedF) with 9. change (zlen kDropped) with 9. change (zlen [101]) with 1. lia. }
        rewrite N. unfold pex_text, extended. rewrite EB. reflexivity.
      * unfold B in *. fold XA XF X.
        split; unfold u32; unfold zlen in *; unfold X, XA, XF, kAdded, kAddedF, kDropped in *; rewrite ?app_length in *; cbn [length] in *; rewrite ?app_length in *; cbn [length] in *; rewrite Z.mod_small; lia.
Qed.

Lemma bencode_dict_le added flags dropped : Forall ok4 added -> Forall ok4 dropped -> length flags = length added ->
  zlen added < 100000000 -> zlen dropped < 100000000 -> zlen (bencode (BDict (pex_dict added flags dropped))) <= 7 * zlen added + 6 * zlen dropped + 200.
Proof.
  intros A D L BA BD. pose proof (compact_length _ A) as CA. pose proof (compact_length _ D) as CD.
  pose proof (zlen_nonneg added). pose proof (zlen_nonneg dropped).
  pose proof (toString_digits (zlen (compact added)) ltac:(unfold zlen in *; lia)). pose proof (toString_digits (zlen (compact dropped)) ltac:(unfold zlen in *; lia)).
  pose proof (toString_digits (zlen flags) ltac:(unfold zlen in *; lia)).
  destruct added, dropped; cbn [pex_dict app bencode map concat fst snd];
    change (toString (zlen [97;100;100;101;100])) with [53]; change (toString (zlen [97;100;100;101;100;46;102])) with [55]; change (toString (zlen [100;114;111;112;112;101;100])) with [55];
    unfold zlen in *; repeat (rewrite ?app_length in *; cbn [length app] in *); lia.
Qed.

(** C44, reading: the dictionary of a message is read back as sent, the addresses in order with
    their flags; whatever follows in the buffer (one byte behind the text must be readable). *)
Theorem C44_read_back_partial : forall added flags dropped old c rest fuel, Forall ok4 added -> Forall ok4 dropped -> bytes_ok flags -> length flags = length added ->
  zlen added < 100000000 -> zlen dropped < 100000000 -> (20 <= fuel)%nat ->
  let text := bencode (BDict (pex_dict added flags dropped)) in
  exists m, pexRead fuel old (text ++ c :: rest) (zlen text) = Val (Some m) /\
    map meaning (pmAdded m) = map meaning added /\ pmFlags m = flags /\ map meaning (pmDropped m) = map meaning dropped /\ pmAdded6 m = [].
Proof.
  intros added flags dropped old c rest fuel A D F L BA BD FU text.
  pose proof (bencode_dict_le added flags dropped A D L BA BD) as BL. fold text in BL.
  pose proof (pex_dict_ok added flags dropped A D F) as OK.
  assert (N : (nodes (BDict (pex_dict added flags dropped)) <= 7)%nat) by (destruct added, dropped; cbn; lia).
  destruct (parse_bencode (BDict (pex_dict added flags dropped)) c rest fuel (zlen text)) as (r & E & R & P & _); try assumption; try lia; try (fold text; lia).
  fold text in E, R. unfold pexRead. rewrite E. cbn [obind]. rewrite P. cbn [negb].
  assert (T : match pobjs r with [] => true | o :: _ => negb (typeEqb (otyp o) TDict) end = false).
  { cbn [reads] in R. destruct R as (R1 & R2 & _). destruct (pobjs r); [cbn in R1; lia|]. cbn [nth] in R2. rewrite R2. reflexivity. }
  rewrite T. clear T.
  assert (G : forall name, popText fuel (text ++ c :: rest) (pobjs r) name = Val (match lookup name KStr (pex_dict added flags dropped) with Some (BStr s) => Some s | _ => None end)).
  { intros name. pose proof (getObject_ok (text ++ c :: rest) (pobjs r) _ 0 name KStr fuel R) as G. unfold popText. change TText with (otype_of KStr).
    assert (LD : (length (pex_dict added flags dropped) <= fuel)%nat) by (destruct added, dropped; cbn; lia). specialize (G LD).
    destruct (lookup name KStr (pex_dict added flags dropped)) as [v|] eqn:LK.
    - destruct (lookup_text _ _ _ LK) as [s ->]. destruct G as (j & -> & RJ). cbn [obind]. destruct RJ as (_ & _ & TX). rewrite TX. reflexivity.
    - rewrite G. reflexivity. }
  rewrite !G. cbn [obind].
  assert (LA : orNil (match lookup nAdded KStr (pex_dict added flags dropped) with Some (BStr s) => Some s | _ => None end) = compact added) by (destruct added, dropped; reflexivity).
  assert (LF : orNil (match lookup nAddedF KStr (pex_dict added flags dropped) with Some (BStr s) => Some s | _ => None end) = flags).
  { destruct added, dropped; try reflexivity; cbn in L |- *; destruct flags; try reflexivity; discriminate. }
  assert (L6 : orNil (match lookup nAdded6 KStr (pex_dict added flags dropped) with Some (BStr s) => Some s | _ => None end) = []) by (destruct added, dropped; reflexivity).
  assert (L6F : orNil (match lookup nAdded6F KStr (pex_dict added flags dropped) with Some (BStr s) => Some s | _ => None end) = []) by (destruct added, dropped; reflexivity).
  assert (LDR : orNil (match lookup nDropped KStr (pex_dict added flags dropped) with Some (BStr s) => Some s | _ => None end) = compact dropped) by (destruct added, dropped; reflexivity).
  rewrite LA, LF, L6, L6F, LDR. eexists. split; [reflexivity|]. cbn [pmAdded pmFlags pmDropped pmAdded6].
  destruct (readAddrs_ok added A (length (compact added)) old) as (ra & RA & MA); [rewrite compact_length by assumption; lia|].
  destruct (readAddrs_ok dropped D (length (compact dropped)) old) as (rd & RD & MD); [rewrite compact_length by assumption; lia|].
  rewrite RA, RD. refine (conj MA (conj _ (conj MD eq_refl))).
  apply (f_equal (@length _)) in MA. rewrite !map_length in MA. unfold zlen. rewrite MA, L, Z.eqb_refl. reflexivity.
Qed.
Print Assumptions C44_read_back_partial.

(** ** Updates *)

(** Events: the time and the peers connected then. *)
Fixpoint pexRun (s : plocal) (evs : list (Z * list ppeer)) : res plocal :=
  match evs with
  | [] => Ok s
  | e :: evs' => bind (pexUpdate s (fst e) (snd e)) (fun s' => pexRun s' evs')
  end.

(** The peers at the last two updates which counted: those at least 60 seconds after the one
    that counted before. *)
Fixpoint last_two (t : Z) (prev cur : list ppeer) (evs : list (Z * list ppeer)) : Z * list ppeer * list ppeer :=
  match evs with
  | [] => (t, prev, cur)
  | e :: evs' => if fst e - 60 <? t then last_two t prev cur evs' else last_two (fst e) cur (snd e) evs'
  end.

Definition peers4 (ps : list ppeer) : Prop := Forall (fun p => ok4 (ppAddr p)) ps /\ zlen ps < 1000000.

(** [D] are the peers which went away from [prev] to [cur], each once. *)
Definition gone (prev cur : list ppeer) (D : list addr) : Prop :=
  Forall ok4 D /\ NoDup (map meaning D) /\
  forall x, In x (map meaning D) <-> In x (map (fun p => meaning (ppAddr p)) prev) /\ ~ In x (map (fun p => meaning (ppAddr p)) cur).

Definition message_of (cur : list ppeer) (D : list addr) : list Z :=
  pex_text (map ppAddr (firstn 50 cur)) (map ppFlags (firstn 50 cur)) D.

Lemma ppFlags_byte p : is_byte (ppFlags p).
Proof. unfold ppFlags, is_byte. destruct (ppSeed p), (ppEnc p), (ppUtp p), (ppHole p); lia. Qed.

Lemma names_map l x : names (map ppAddr l) x <-> In x (map (fun p => meaning (ppAddr p)) l).
Proof. unfold names. now rewrite map_map. Qed.

Lemma firstn_short {A} n (l : list A) : zlen (firstn n l) <= zlen l /\ zlen (firstn n l) <= Z.of_nat n.
Proof. unfold zlen. rewrite firstn_length. lia. Qed.

(** What holds of the local data after [prev] and [cur] were the peers of the last updates. *)
Definition pinv (s : plocal) (prev cur : list ppeer) : Prop :=
  Forall ok4 (plPeers s) /\ StronglySorted altb (plPeers s) /\ zlen (plPeers s) <= zlen cur /\
  (forall x, names (plPeers s) x <-> names (map ppAddr cur) x) /\
  exists D, gone prev cur D /\ plData s = message_of cur D /\
    (D <> [] \/ plOff1 s = 0 -> plOff0 s = (if match D with [] => true | _ => false end then 0 else 6 + (zlen (bencode (BDict (pex_dict (map ppAddr (firstn 50 cur)) (map ppFlags (firstn 50 cur)) []))) - 1)) /\
       (D <> [] -> plOff1 s = 6 + (zlen (bencode (BDict (pex_dict (map ppAddr (firstn 50 cur)) (map ppFlags (firstn 50 cur)) D))) - 1))).

Lemma asInsert_length a l : (length (asInsert a l) <= S (length l))%nat.
Proof. induction l as [|b l IH]; cbn [asInsert]; [cbn; lia|]. destruct (addrLt a b); [cbn; lia|]. destruct (addrLt b a); cbn [length] in *; lia. Qed.

Lemma pexPeer_now ps : forall st, (length (snd (fst (fold_left pexPeer ps st))) <= length ps + length (snd (fst st)))%nat.
Proof.
  induction ps as [|p ps IH]; intros st; [reflexivity|]. cbn [fold_left]. specialize (IH (pexPeer st p)).
  assert (length (snd (fst (pexPeer st p))) <= S (length (snd (fst st))))%nat; [|cbn [length]; lia].
  destruct st as [[[a f] n] o]. unfold pexPeer. destruct (_ && _); cbn [fst snd]; apply asInsert_length.
Qed.

Lemma pexUpdate_ok s now ps prev cur : pinv s prev cur -> peers4 ps -> zlen cur < 1000000 -> now - 60 >= plTime s ->
  exists s', pexUpdate s now ps = Ok s' /\ pinv s' cur ps /\ plTime s' = now.
Proof.
  intros (P1 & P2 & P3 & P4 & _) (B1 & B2) C T. unfold pexUpdate. replace (now - 60 <? plTime s) with false by lia.
  destruct (pexPeer_fold ps B1 [] [] [] (plPeers s) ltac:(constructor) ltac:(constructor) P1 P2 eq_refl ltac:(change (zlen (@nil Z)) with 0; lia)) as (now' & old' & E & I1 & I2 & I3 & I4 & I5 & I6 & I7 & I8).
  pose proof (pexPeer_now ps ([], [], [], plPeers s)) as LN. cbn [fst snd length app] in LN. rewrite E in LN |- *. cbn [fst snd length app] in LN |- *.
  replace (50 - 0)%nat with 50%nat by reflexivity.
  assert (A : Forall ok4 (map ppAddr (firstn 50 ps))).
  { apply Forall_map. clear - B1. rewrite <- (firstn_skipn 50 ps) in B1. now apply Forall_app in B1. }
  assert (ZD : zlen old' < 1000000) by (unfold zlen in *; lia).
  assert (ZA : zlen (map ppAddr (firstn 50 ps)) <= 50) by (unfold zlen; rewrite map_length, firstn_length; lia).
  pose proof (bencode_dict_le (map ppAddr (firstn 50 ps)) (map ppFlags (firstn 50 ps)) old' A I4 ltac:(rewrite !map_length; reflexivity) ltac:(lia) ltac:(lia)) as BL.
  destruct (createPex_text (map ppAddr (firstn 50 ps)) (map ppFlags (firstn 50 ps)) old' (plOff1 s)) as (o0 & o1 & CE & O); [rewrite !map_length; reflexivity|lia|].
  rewrite CE. cbn [bind]. eexists. split; [reflexivity|]. split; [|reflexivity]. unfold pinv. cbn [plPeers plData plOff0 plOff1].
  refine (conj I1 (conj I2 (conj _ (conj _ _)))).
  - unfold zlen. lia.
  - intros x. rewrite I3. unfold names. cbn. tauto.
  - exists old'. split; [|split; [reflexivity|]].
    + refine (conj I4 (conj (sorted_names_nodup _ I4 I5) _)). intros x. change (In x (map meaning old')) with (names old' x).
      rewrite I6, P4, !names_map. reflexivity.
    + intros H. destruct old' as [|d old'].
      * destruct O as (-> & ->). destruct H as [H|H]; [congruence|]. split; [reflexivity|congruence].
      * destruct O as (-> & ->). split; [reflexivity|]. intros _. reflexivity.
Qed.

Lemma pexRun_ok evs : forall s prev cur, pinv s prev cur -> zlen cur < 1000000 -> Forall (fun e => peers4 (snd e)) evs ->
  exists s', pexRun s evs = Ok s' /\ let '(t, p, c) := last_two (plTime s) prev cur evs in pinv s' p c /\ plTime s' = t.
Proof.
  induction evs as [|[now ps] evs IH]; intros s prev cur I C F; cbn [pexRun last_two fst snd].
  - exists s. auto.
  - inversion F as [|? ? F1 F2]; subst. cbn [snd] in F1. destruct (Z.ltb_spec (now - 60) (plTime s)) as [H|H].
    + unfold pexUpdate. replace (now - 60 <? plTime s) with true by lia. cbn [bind]. now apply IH.
    + destruct (pexUpdate_ok s now ps prev cur I F1 C ltac:(lia)) as (s' & -> & I' & T). cbn [bind]. rewrite <- T. apply IH; try assumption. apply F1.
Qed.

Lemma pinv_new t0 : pinv (newPex t0) [] [].
Proof.
  unfold pinv, newPex. cbn [plPeers plData plOff0 plOff1]. refine (conj _ (conj _ (conj _ (conj _ _)))); [apply Forall_nil|apply SSorted_nil|apply Z.le_refl|intros x; reflexivity|].
  exists []. split; [|split; [reflexivity|]].
  - unfold gone. cbn. refine (conj _ (conj _ _)); [constructor|constructor|tauto].
  - intros _. split; [reflexivity|congruence].
Qed.

(** C44, the part which holds: after any updates (of IPv4 peers) the message is the one of
    BEP 11 with, as dropped, exactly the peers gone since the update before, each once; as
    added, with their flags, the first 50 of all the peers connected now (all of them, not only
    the new ones); no message if there is nothing. *)
Theorem C44_lists_partial : forall t0 evs, Forall (fun e => peers4 (snd e)) evs ->
  exists s, pexRun (newPex t0) evs = Ok s /\
    let '(_, prev, cur) := last_two t0 [] [] evs in
    exists D, gone prev cur D /\ plData s = message_of cur D.
Proof.
  intros t0 evs F. destruct (pexRun_ok evs (newPex t0) [] [] (pinv_new t0) eq_refl F) as (s & E & X). exists s. split; [exact E|].
  cbn [plTime newPex] in X. destruct (last_two t0 [] [] evs) as [[t p] c]. destruct X as ((_ & _ & _ & _ & D & G & M & _) & _). eauto.
Qed.
Print Assumptions C44_lists_partial.

Lemma added_limit cur : zlen (map ppAddr (firstn 50 cur)) <= 50.
Proof. unfold zlen. rewrite map_length, firstn_length. lia. Qed.

(** C44: the first message to a peer has only the added peers, if the current message has
    dropped ones (or none ever had any). *)
Lemma first_ok s prev cur : pinv s prev cur -> zlen prev < 1000000 -> peers4 cur -> plData s <> [] ->
  (exists D, gone prev cur D /\ D <> []) \/ plOff1 s = 0 ->
  firstPex s = Ok (extended 0 (bencode (BDict (pex_dict (map ppAddr (firstn 50 cur)) (map ppFlags (firstn 50 cur)) [])))).
Proof.
  intros (_ & _ & _ & _ & D & G & M & O) ZP (C1 & C2) NE H.
  assert (GD : D <> [] \/ plOff1 s = 0).
  { destruct H as [(D' & G' & H)|H]; [left|auto]. intros ->. destruct D' as [|d D']; [congruence|].
    destruct G as (_ & _ & G). destruct G' as (_ & _ & G'). destruct (proj2 (G (meaning d))). apply G'. left. reflexivity. }
  specialize (O GD).
  assert (A : Forall ok4 (map ppAddr (firstn 50 cur))).
  { apply Forall_map. clear - C1. rewrite <- (firstn_skipn 50 cur) in C1. now apply Forall_app in C1. }
  set (A50 := map ppAddr (firstn 50 cur)) in *. set (F50 := map ppFlags (firstn 50 cur)) in *.
  assert (LF : length F50 = length A50) by (unfold F50, A50; rewrite !map_length; reflexivity).
  assert (ZA : zlen A50 <= 50) by apply added_limit.
  assert (ZD : zlen D <= zlen prev).
  { destruct G as (_ & ND & G). unfold zlen. rewrite <- (map_length meaning D), <- (map_length (fun p => meaning (ppAddr p)) prev).
    apply inj_le. apply NoDup_incl_length; [exact ND|]. intros x X. apply G in X. tauto. }
  destruct G as (GO & _). pose proof (zlen_nonneg D) as D0. pose proof (zlen_nonneg A50) as A0.
  pose proof (bencode_dict_le A50 F50 D A GO LF ltac:(lia) ltac:(lia)) as BL.
  pose proof (bencode_dict_le A50 F50 [] A ltac:(constructor) LF ltac:(lia) eq_refl) as BL0. change (zlen (@nil addr)) with 0 in BL0.
  assert (M' : plData s = pex_text A50 F50 D) by (rewrite M; reflexivity).
  unfold firstPex. replace (zlen (plData s) =? 0) with false by (destruct (plData s); [congruence|unfold zlen; cbn [length]; lia]). cbn [negb andb].
  destruct D as [|d D].
  - destruct O as (O0 & _). cbn in O0. destruct GD as [|O1]; [congruence|]. rewrite O0, O1, M'. destruct A50 as [|a A50'] eqn:EA.
    { exfalso. apply NE. rewrite M'. reflexivity. }
    set (t := bencode _). fold t in BL. unfold pex_text, extended. fold t.
    replace (0 <? zlen (be 4 (zlen (20 :: 0 :: t)) ++ 20 :: 0 :: t)) with true by (rewrite zlen_app; unfold zlen; cbn [length]; lia).
    change (0 <? 0) with false. change (Z.to_nat 0) with 0%nat. cbn [firstn skipn app].
    pose proof (be_length 4 (zlen (20 :: 0 :: t))) as LB.
    destruct (be 4 (zlen (20 :: 0 :: t))) as [|b0 [|b1 [|b2 [|b3 [|]]]]] eqn:EB; try discriminate LB. cbn [app].
    rewrite setSizeHeader_ok by (unfold zlen in *; cbn [length]; lia). rewrite EB. reflexivity.
  - destruct O as (O0 & O1). cbn iota in O0. specialize (O1 ltac:(discriminate)).
    set (t := bencode (BDict (pex_dict A50 F50 (d :: D)))) in *. set (t0 := bencode (BDict (pex_dict A50 F50 []))) in *.
    assert (PT : plData s = extended 0 t) by (rewrite M'; unfold pex_text; destruct A50; reflexivity).
    assert (SP : exists x y, t0 = x ++ [101] /\ t = x ++ y ++ [101]).
    { unfold t0, t. exists ([100] ++ concat (map benentry (pex_dict A50 F50 []))), (concat (map benentry [([100;114;111;112;112;101;100], BStr (compact (d :: D)))])).
      rewrite !bencode_dict. split; [now rewrite <- app_assoc|].
      assert (EQ : pex_dict A50 F50 (d :: D) = pex_dict A50 F50 [] ++ [([100;114;111;112;112;101;100], BStr (compact (d :: D)))]).
      { unfold pex_dict. rewrite app_nil_r. reflexivity. }
      rewrite EQ, map_app, concat_app. rewrite <- !app_assoc. reflexivity. }
    destruct SP as (x & y & E0 & Et).
    pose proof (zlen_nonneg x) as X0. pose proof (zlen_nonneg y) as Y0.
    assert (Zt0 : zlen t0 = zlen x + 1) by (rewrite E0, zlen_app; reflexivity).
    assert (Zt : zlen t = zlen x + zlen y + 1) by (rewrite Et, !zlen_app; change (zlen [101]) with 1; lia).
    rewrite PT. unfold extended at 1.
    assert (ZE : zlen (extended 0 t) = 6 + zlen t) by (unfold extended; rewrite zlen_app; unfold zlen at 1; rewrite be_length; unfold zlen; cbn [length]; lia).
    replace (plOff1 s <? zlen (be 4 (zlen (20 :: 0 :: t)) ++ 20 :: 0 :: t)) with true by (fold (extended 0 t); rewrite ZE; lia).
    replace (plOff1 s <? plOff0 s) with false by lia.
    pose proof (be_length 4 (zlen (20 :: 0 :: t))) as LB.
    assert (EX : extended 0 t = (be 4 (zlen (20 :: 0 :: t)) ++ [20; 0] ++ x) ++ y ++ [101]) by (unfold extended; rewrite Et at 2; rewrite <- !app_assoc; reflexivity).
    rewrite EX.
    assert (LX : length (be 4 (zlen (20 :: 0 :: t)) ++ [20; 0] ++ x) = Z.to_nat (plOff0 s)).
    { rewrite !app_length, LB. cbn [length]. unfold zlen in *. lia. }
    rewrite firstn_app_len by (symmetry; exact LX).
    replace ((be 4 (zlen (20 :: 0 :: t)) ++ [20; 0] ++ x) ++ y ++ [101]) with (((be 4 (zlen (20 :: 0 :: t)) ++ [20; 0] ++ x) ++ y) ++ [101]) by (now rewrite <- !app_assoc).
    rewrite skipn_app_len by (rewrite app_length, LX; unfold zlen in *; lia).
    destruct (be 4 (zlen (20 :: 0 :: t))) as [|b0 [|b1 [|b2 [|b3 [|]]]]] eqn:EB; try discriminate LB. cbn [app]. rewrite <- E0.
    rewrite setSizeHeader_ok by (unfold zlen in *; cbn [length]; lia). reflexivity.
Qed.

Theorem C44_first_partial : forall t0 evs s, Forall (fun e => peers4 (snd e)) evs -> pexRun (newPex t0) evs = Ok s ->
  let '(_, prev, cur) := last_two t0 [] [] evs in
  (exists D, gone prev cur D /\ D <> []) ->
  firstPex s = Ok (extended 0 (bencode (BDict (pex_dict (map ppAddr (firstn 50 cur)) (map ppFlags (firstn 50 cur)) [])))).
Proof.
  intros t0 evs s F R. destruct (pexRun_ok evs (newPex t0) [] [] (pinv_new t0) eq_refl F) as (s' & E & X). rewrite E in R. injection R as ->.
  cbn [plTime newPex] in X. assert (Q : forall l t p c, Forall (fun e => peers4 (snd e)) l -> peers4 p -> peers4 c -> let '(_, p', c') := last_two t p c l in peers4 p' /\ peers4 c').
  { induction l as [|e l IH]; intros t p c FL FP FC; cbn [last_two]; [auto|]. inversion FL; subst. destruct (_ <? _); apply IH; assumption. }
  specialize (Q evs t0 [] [] F (conj (Forall_nil _) eq_refl) (conj (Forall_nil _) eq_refl)).
  destruct (last_two t0 [] [] evs) as [[t p] c]. destruct X as (I & _). intros H. apply (first_ok s p c); [exact I|apply Q|apply Q| |auto].
  destruct I as (_ & _ & _ & _ & D & G & M & _). destruct H as (D' & G' & H). rewrite M. unfold message_of, pex_text.
  destruct D as [|d D]; [|destruct (map ppAddr (firstn 50 c)); unfold extended; intros X; apply (f_equal (@length Z)) in X; rewrite app_length, be_length in X; discriminate].
  exfalso. destruct D' as [|d D']; [congruence|]. destruct G as (_ & _ & G). destruct G' as (_ & _ & G'). destruct (proj2 (G (meaning d))). apply G'. left. reflexivity.
Qed.
Print Assumptions C44_first_partial.

(** C44, sending: a peer gets the current message, with its own number of the extension in it,
    not the same one twice running and not within 60 seconds. *)
Theorem C44_sent : forall s r now r' d, pexSend s r now = Ok (r', Some d) ->
  plData s <> [] /\ plData s <> prLast r /\ prLast r' = plData s /\ prTime r' = now /\
  (prTime r = 0 \/ (prTime r + 60 <= now /\ forall body, plData s = extended 0 body -> d = extended (u8 (prMid r)) body)).
Proof.
  intros s r now r' d. unfold pexSend. destruct (list_eqb (prLast r) (plData s) || (zlen (plData s) =? 0)) eqn:C1; [discriminate|].
  apply orb_false_elim in C1 as [C1 C2]. destruct (negb (prTime r =? 0) && (now - 60 <? prTime r)) eqn:C3; [discriminate|].
  destruct (if negb (prTime r =? 0) then Ok (plData s) else firstPex s) as [x|] eqn:E; [|discriminate]. cbn [bind]. destruct (zlen x <? 6); [discriminate|].
  intros H. injection H as <- <-. cbn [prLast prTime]. refine (conj _ (conj _ (conj eq_refl (conj eq_refl _)))).
  - intros H. rewrite H in C2. discriminate.
  - intros H. rewrite H, list_eqb_refl in C1. discriminate.
  - destruct (Z.eqb_spec (prTime r) 0) as [|NZ]; [auto|]. right. cbn [negb andb] in *. split; [lia|]. injection E as <-. intros body ->.
    unfold extended. pose proof (be_length 4 (zlen (20 :: 0 :: body))) as LB. replace (zlen (20 :: u8 (prMid r) :: body)) with (zlen (20 :: 0 :: body)) by reflexivity.
    destruct (be 4 (zlen (20 :: 0 :: body))) as [|b0 [|b1 [|b2 [|b3 [|]]]]]; try discriminate LB. reflexivity.
Qed.
Print Assumptions C44_sent.

(** The peers a remote peer named are remembered: exactly those in its messages. *)
Theorem C44_named : forall ms a, Forall (Forall ok4) ms -> ok4 a ->
  let r := fold_left (fun l m => fold_left (fun l a => asInsert a l) m l) ms [] in
  asFind a r = true <-> In (meaning a) (map meaning (concat ms)).
Proof.
  intros ms a F A r. assert (G : Forall ok4 r /\ StronglySorted altb r /\ forall x, names r x <-> In x (map meaning (concat ms))).
  { unfold r. assert (W : forall l, Forall ok4 l -> StronglySorted altb l -> forall ms, Forall (Forall ok4) ms ->
      let r := fold_left (fun l m => fold_left (fun l a => asInsert a l) m l) ms l in Forall ok4 r /\ StronglySorted altb r /\ forall x, names r x <-> names l x \/ In x (map meaning (concat ms))).
    { clear. intros l L1 L2 ms. revert l L1 L2. induction ms as [|m ms IH]; intros l L1 L2 F; [cbn; intuition|]. inversion F as [|? ? F1 F2]; subst. cbn [fold_left].
      assert (V : forall m, Forall ok4 m -> forall l, Forall ok4 l -> StronglySorted altb l -> let r := fold_left (fun l a => asInsert a l) m l in
         Forall ok4 r /\ StronglySorted altb r /\ forall x, names r x <-> names l x \/ In x (map meaning m)).
      { clear. induction 1 as [|b m B _ IH]; intros l L1 L2; [cbn; intuition|]. cbn [fold_left]. destruct (asInsert_ok b l B L1 L2) as (I1 & I2 & I3 & _).
        destruct (IH _ I1 I2) as (J1 & J2 & J3). refine (conj J1 (conj J2 _)). intros x. rewrite J3, I3. cbn [map In]. intuition. }
      destruct (V m F1 l L1 L2) as (V1 & V2 & V3). destruct (IH _ V1 V2 F2) as (J1 & J2 & J3). refine (conj J1 (conj J2 _)).
      intros x. rewrite J3, V3. cbn [concat]. rewrite map_app, in_app_iff. tauto. }
    destruct (W [] ltac:(constructor) ltac:(constructor) ms F) as (W1 & W2 & W3). refine (conj W1 (conj W2 _)). intros x. rewrite W3. unfold names. cbn. tauto. }
  destruct G as (G1 & G2 & G3). rewrite (asFind_ok a r A G1 G2), G3. reflexivity.
Qed.
Print Assumptions C44_named.

(** ** Findings *)

Definition exA (n : Z) : addr := {| addrBytes := [10; 0; 0; n] ++ repeat 0 12; port := 6881; ipv6 := false |}.
Definition exP (n : Z) : ppeer := {| ppAddr := exA n; ppSeed := false; ppEnc := true; ppUtp := false; ppHole := false |}.
Definition exA6 : addr := {| addrBytes := [32; 1] ++ repeat 0 13 ++ [5]; port := 6881; ipv6 := true |}.
Definition exP6 : ppeer := {| ppAddr := exA6; ppSeed := false; ppEnc := false; ppUtp := false; ppHole := false |}.

Lemma exP_ok n : 0 <= n < 256 -> ok4 (ppAddr (exP n)).
Proof.
  intros H. split; [|reflexivity]. unfold addr_ok, exP, exA. cbn [ppAddr addrBytes port]. refine (conj eq_refl (conj _ _)); [|lia].
  repeat constructor; unfold is_byte; cbn; lia.
Qed.

(** What a peer reads of the current message. *)
Definition read_now (s : plocal) : out (option pexmsg) := pexRead 50 (repeat 0 16) (skipn 6 (plData s) ++ [0]) (zlen (plData s) - 6).

(** Peers which were already named are named again as added, in every message. *)
Theorem C44_again_refuted : exists evs s m, Forall (fun e => peers4 (snd e)) evs /\ pexRun (newPex 0) evs = Ok s /\
  last_two 0 [] [] evs = (120, [exP 1], [exP 1; exP 2]) /\ read_now s = Val (Some m) /\
  map meaning (pmAdded m) = map meaning [exA 1; exA 2].
Proof.
  exists [(60, [exP 1]); (120, [exP 1; exP 2])]. eexists _, _. split.
  { repeat constructor; try apply exP_ok; cbn; lia. }
  split; [vm_compute; reflexivity|]. split; [reflexivity|]. split; vm_compute; reflexivity.
Qed.
Print Assumptions C44_again_refuted.

(** Dropped peers are not limited to 50. *)
Theorem C44_over_50_refuted : exists evs s m, Forall (fun e => peers4 (snd e)) evs /\ pexRun (newPex 0) evs = Ok s /\
  read_now s = Val (Some m) /\ length (pmDropped m) = 60%nat.
Proof.
  exists [(60, map (fun i => exP (Z.of_nat i)) (seq 0 60)); (120, [])]. eexists _, _. split.
  { constructor; [|constructor; [split; [constructor|reflexivity]|constructor]]. split; [|reflexivity]. cbn [snd]. apply Forall_map. apply Forall_forall. intros i I. apply in_seq in I. apply exP_ok. lia. }
  split; [vm_compute; reflexivity|]. split; vm_compute; reflexivity.
Qed.
Print Assumptions C44_over_50_refuted.

(** An IPv6 peer is never named as added, but its 18 bytes are written among the dropped ones,
    where they are read as three other peers. *)
Theorem C44_ipv6_refuted : exists s1 s2 m, pexRun (newPex 0) [(60, [exP6])] = Ok s1 /\ plData s1 = [] /\
  pexRun (newPex 0) [(60, [exP6]); (120, [])] = Ok s2 /\ read_now s2 = Val (Some m) /\
  map meaning (pmDropped m) = [(false, [32; 1; 0; 0], 0); (false, [0; 0; 0; 0], 0); (false, [0; 0; 0; 5], 6881)].
Proof. eexists _, _, _. repeat split; vm_compute; reflexivity. Qed.
Print Assumptions C44_ipv6_refuted.

(** The offset of an earlier dropped part is kept. After a message with dropped peers and one
    without, the first message for a new peer has lost its beginning; sending it can write
    outside the buffer. *)
Theorem C44_first_refuted : 
  (exists s d, pexRun (newPex 0) [(60, [exP 1]); (120, []); (180, [exP 2])] = Ok s /\ firstPex s = Ok d /\ zlen d = 11 /\ nth 4 d 0 <> 20) /\
  (exists s, pexRun (newPex 0) [(60, [exP 1; exP 2]); (120, []); (180, [exP 3])] = Ok s /\
     forall last mid ps now, last <> plData s -> pexSend s {| prLast := last; prTime := 0; prMid := mid; prPeers := ps |} now = UB).
Proof.
  split.
  - eexists _, _. split; [vm_compute; reflexivity|]. split; [vm_compute; reflexivity|]. split; [reflexivity|]. cbn. lia.
  - eexists. split; [vm_compute; reflexivity|]. intros last mid ps now H. unfold pexSend. cbn [prLast plData prTime] in *.
    destruct (list_eqb last _) eqn:E; [apply list_eqb_spec in E; contradiction|]. reflexivity.
Qed.
Print Assumptions C44_first_refuted.

(** A message with both lists, and the first message for a new peer. *)
Example ex_pex : match pexRun (newPex 0) [(60, [exP 1; exP 2]); (90, [exP 9]); (130, [exP 2; exP 3])] with
  | Ok s => match read_now s with Val (Some m) => map meaning (pmAdded m) = map meaning [exA 2; exA 3] /\ pmFlags m = [1; 1] /\ map meaning (pmDropped m) = map meaning [exA 1] | _ => False end
  | UB => False end.
Proof. vm_compute. auto. Qed.
Example ex_pex_gone : gone [exP 1; exP 2] [exP 2; exP 3] [exA 1].
Proof.
  refine (conj _ (conj _ _)); [constructor; [apply (exP_ok 1); lia|constructor]|cbn; constructor; [intros []|constructor]|].
  intros x. cbn. split; [intros [<-|[]]; split; [auto|intros [H|[H|[]]]; discriminate]|intros [[H|[H|[]]] N]; [auto|exfalso; apply N; auto]].
Qed.

(** C44: the byte written for a peer has the bits of BEP 11: 1 encryption, 2 seed, 4 uTP, 8 hole
    punching, and no others. *)
Theorem C44_flags : forall p, 0 <= ppFlags p < 16 /\ Z.testbit (ppFlags p) 0 = ppEnc p /\ Z.testbit (ppFlags p) 1 = ppSeed p /\ Z.testbit (ppFlags p) 2 = ppUtp p /\ Z.testbit (ppFlags p) 3 = ppHole p.
Proof. intros [a s e u h]. destruct s, e, u, h; vm_compute; repeat split; congruence. Qed.
Print Assumptions C44_flags.
