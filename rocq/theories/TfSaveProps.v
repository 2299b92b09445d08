(** C78: the .torrent file written for a torrent reads back as that torrent. *)
From Verif Require Import Base BaseLemmas Dec DecLemmas BencodeModel BencodeSpec BencodeProofs StateModel StateProps LayoutModel ShaModel ShaSpec ShaProps TfModel TfSpec TfProofs TfReads TfProps TfSaveModel.

(** ** What is written, as a bencoded value *)

Definition meta_entries (t : tfile) : list (list Z * bval) :=
  (match tfAnnounce t with [] => [] | a => [(kAnnounce, BStr a)] end) ++
  (match tfTrackers t with [] => [] | l => [(kAnnounceList, BList (map (fun a => BList [BStr a]) l))] end) ++
  (match tfCreatedBy t with [] => [] | b => [(kCreatedBy, BStr b)] end) ++
  (if tfCreated t =? 0 then [] else [(kCreated, BInt (tfCreated t))]).

(** The info dictionary written for a torrent whose bytes were not kept. *)
Definition built_file (f : (list Z * list (list Z)) * Z) : bval :=
  BDict [(kLength, BInt (snd f)); (kPath, BList (map (fun p => BStr (cstr p)) (tl (snd (fst f)))))].
Definition built_info (i : tinfo) : list (list Z * bval) :=
  (match sizedFiles i with [] => [] | [f] => [(kLength, BInt (snd f))] | fs => [(kFiles, BList (map built_file fs))] end) ++
  [(kName, BStr (tiName i)); (kPieceLength, BInt (pieceSize (tiLayout i))); (kPieces, BStr (concat (tiPieces i)))] ++
  (if tiPrivate i then [(kPrivate, BInt 1)] else []).

Ltac litlen := repeat match goal with |- context [toString (zlen (?a :: ?l))] => let x := eval vm_compute in (toString (zlen (a :: l))) in change (toString (zlen (a :: l))) with x end.

Lemma benentry_text k s : benentry (k, BStr s) = toString (zlen k) ++ [58] ++ k ++ toString (zlen s) ++ [58] ++ s.
Proof. unfold benentry, benkey. cbn [fst snd bencode]. now rewrite <- !app_assoc. Qed.

Lemma benentry_int k n : benentry (k, BInt n) = toString (zlen k) ++ [58] ++ k ++ [105] ++ toString n ++ [101].
Proof. unfold benentry, benkey. cbn [fst snd bencode]. now rewrite <- !app_assoc. Qed.

Lemma tracker_app d a : saveTracker d a = d ++ bencode (BList [BStr a]).
Proof. unfold saveTracker, endArray, addText, startArray. rewrite bencode_list. cbn [map concat bencode]. rewrite app_nil_r, <- !app_assoc. reflexivity. Qed.

Lemma pre_app t : let d := startMap [] in
  let d := match tfAnnounce t with [] => d | a => rawText d wAnnounce a end in
  let d := match tfTrackers t with [] => d | l => endArray (fold_left saveTracker l (startArray (addRawData d wAnnounceList))) end in
  let d := match tfCreatedBy t with [] => d | b => rawText d wCreatedBy b end in
  (if tfCreated t =? 0 then d else rawNumber d wCreated (tfCreated t)) = [100] ++ concat (map benentry (meta_entries t)).
Proof.
  cbv zeta. unfold meta_entries. rewrite !map_app, !concat_app, !app_assoc.
  assert (S4 : forall d, (if tfCreated t =? 0 then d else rawNumber d wCreated (tfCreated t)) = d ++ concat (map benentry (if tfCreated t =? 0 then [] else [(kCreated, BInt (tfCreated t))]))).
  { intros d. destruct (tfCreated t =? 0); [now rewrite app_nil_r|]. cbn [map concat]. unfold rawNumber, addNumber, addRawData, benentry, benkey. cbn [fst snd bencode].
    change (toString (zlen kCreated)) with [49;51]. unfold wCreated. rewrite app_nil_r, <- !app_assoc. reflexivity. }
  rewrite S4. f_equal.
  assert (S3 : forall d, match tfCreatedBy t with [] => d | b => rawText d wCreatedBy b end = d ++ concat (map benentry (match tfCreatedBy t with [] => [] | b => [(kCreatedBy, BStr b)] end))).
  { intros d. destruct (tfCreatedBy t) as [|c b]; [now rewrite app_nil_r|]. cbn [map concat]. rewrite benentry_text. unfold rawText, addText, addRawData.
    change (toString (zlen kCreatedBy)) with [49;48]. unfold wCreatedBy. rewrite app_nil_r, <- !app_assoc. reflexivity. }
  rewrite S3. f_equal.
  assert (S2 : forall d, match tfTrackers t with [] => d | l => endArray (fold_left saveTracker l (startArray (addRawData d wAnnounceList))) end = d ++ concat (map benentry (match tfTrackers t with [] => [] | l => [(kAnnounceList, BList (map (fun a => BList [BStr a]) l))] end))).
  { intros d. destruct (tfTrackers t) as [|a l]; [now rewrite app_nil_r|]. rewrite (fold_app _ _ tracker_app). generalize (a :: l). clear a l. intros l. cbn [map concat]. unfold benentry, benkey. cbn [fst snd]. rewrite bencode_list.
    unfold endArray, startArray, addRawData. change (toString (zlen kAnnounceList)) with [49;51]. unfold wAnnounceList. rewrite map_map, app_nil_r, <- !app_assoc. reflexivity. }
  rewrite S2. f_equal.
  destruct (tfAnnounce t) as [|c b]; [reflexivity|]. cbn [map concat]. rewrite benentry_text. unfold rawText, addText, addRawData, startMap.
  change (toString (zlen kAnnounce)) with [56]. unfold wAnnounce. rewrite app_nil_r, <- !app_assoc. reflexivity.
Qed.

(** C78, what is written if the bytes of the info dictionary were kept: they are written as they are. *)
Theorem C78_saved_bytes : forall t e, tfData t = bencode (BDict e) ->
  createTorrentFileData t = bencode (BDict (meta_entries t ++ [(kInfo, BDict e)])).
Proof.
  intros t e D. unfold createTorrentFileData. rewrite pre_app. cbv zeta. rewrite D. destruct (bencode (BDict e)) as [|c l] eqn:E; [rewrite bencode_dict in E; discriminate|]. rewrite <- E.
  rewrite (bencode_dict (meta_entries t ++ _)), map_app, concat_app. cbn [map concat]. unfold endMap, addRawData. unfold benentry at 2. unfold benkey. cbn [fst snd]. change (toString (zlen kInfo)) with [52].
  unfold wInfo. rewrite app_nil_r, <- !app_assoc. reflexivity.
Qed.
Print Assumptions C78_saved_bytes.

(** ** Reading it back *)

Definition meta_ok (t : tfile) : Prop :=
  bytes_ok (tfAnnounce t) /\ Forall bytes_ok (tfTrackers t) /\ bytes_ok (tfCreatedBy t) /\ 0 <= tfCreated t < 18446744073709551616.

(** The sizes the parser can handle (C01). *)
Definition meta_small (t : tfile) (e : list (list Z * bval)) (fuel : nat) : Prop :=
  Z.of_nat (nodes (BDict e) + 2 * length (tfTrackers t)) < 65500 /\ zlen (createTorrentFileData t) < 2147483648 /\
  (2 * (nodes (BDict e) + 2 * length (tfTrackers t)) + 100 <= fuel)%nat.

Lemma key_bytes : Forall bytes_ok [kAnnounce; kAnnounceList; kCreatedBy; kCreated; kInfo; kFiles; kLength; kPath; kName; kPieceLength; kPieces; kPrivate].
Proof. repeat (apply Forall_cons; [unfold bytes_ok; repeat (apply Forall_cons; [unfold is_byte; lia|]); apply Forall_nil|]). apply Forall_nil. Qed.
Lemma key_ok k : In k [kAnnounce; kAnnounceList; kCreatedBy; kCreated; kInfo; kFiles; kLength; kPath; kName; kPieceLength; kPieces; kPrivate] -> bytes_ok k.
Proof. pose proof key_bytes as H. rewrite Forall_forall in H. apply H. Qed.

Lemma tiers_ok l : Forall bytes_ok l -> bval_ok (BList (map (fun a => BList [BStr a]) l)).
Proof. intros H. cbn [bval_ok]. apply fold_and, Forall_map. revert H. apply Forall_impl. intros a B. cbn. auto. Qed.
Lemma tiers_nodes l : nodes (BList (map (fun a => BList [BStr a]) l)) = (1 + 2 * length l)%nat.
Proof.
  cbn [nodes]. rewrite map_map. unfold list_sum. induction l as [|a l IH]; [reflexivity|]. cbn [map fold_right length]. cbn [nodes map list_sum fold_right] in *. lia.
Qed.
Lemma tiers_texts l : concat (map (fun v => match v with BList t => texts t | _ => [] end) (map (fun a => BList [BStr a]) l)) = l.
Proof. rewrite map_map. induction l as [|a l IH]; [reflexivity|]. exact (f_equal (cons a) IH). Qed.

Lemma meta_file_ok t e fuel : meta_ok t -> bval_ok (BDict e) -> createTorrentFileData t = bencode (BDict (meta_entries t ++ [(kInfo, BDict e)])) -> meta_small t e fuel ->
  file_ok (meta_entries t ++ [(kInfo, BDict e)]) fuel.
Proof.
  intros (A & T & B & C) E W (N & L & F).
  assert (ND : (nodes (BDict (meta_entries t ++ [(kInfo, BDict e)])) <= nodes (BDict e) + 2 * length (tfTrackers t) + 12)%nat).
  { rewrite nodes_dict, dnodes_app, dnodes_cons. unfold meta_entries. rewrite !dnodes_app.
    assert ((dnodes (match tfTrackers t with [] => [] | l => [(kAnnounceList, BList (map (fun a => BList [BStr a]) l))] end) <= 2 + 2 * length (tfTrackers t))%nat).
    { destruct (tfTrackers t) as [|a l] eqn:TT; [cbn; lia|]. rewrite dnodes_cons, tiers_nodes. cbn. lia. }
    assert ((dnodes (match tfAnnounce t with [] => [] | a => [(kAnnounce, BStr a)] end) <= 2)%nat) by (destruct (tfAnnounce t); cbn; lia).
    assert ((dnodes (match tfCreatedBy t with [] => [] | b => [(kCreatedBy, BStr b)] end) <= 2)%nat) by (destruct (tfCreatedBy t); cbn; lia).
    assert ((dnodes (if (tfCreated t =? 0)%Z then [] else [(kCreated, BInt (tfCreated t))]) <= 2)%nat) by (destruct (tfCreated t =? 0); cbn; lia).
    change (dnodes []) with 0%nat. lia. }
  split; [|split; [|split]].
  - cbn [bval_ok]. apply fold_and.
    assert (ONE : forall k v, In k [kAnnounce; kAnnounceList; kCreatedBy; kCreated; kInfo; kFiles; kLength; kPath; kName; kPieceLength; kPieces; kPrivate] -> bval_ok v ->
      Forall (fun kv => bytes_ok (fst kv) /\ bval_ok (snd kv)) [(k, v)]).
    { intros k v K V. constructor; [|constructor]. split; [now apply key_ok|exact V]. }
    apply Forall_app. split; [|apply ONE; [cbn [In]; tauto|exact E]].
    unfold meta_entries. apply Forall_app. split; [|apply Forall_app; split; [|apply Forall_app; split]].
    + destruct (tfAnnounce t); [constructor|]. apply ONE; [cbn [In]; tauto|exact A].
    + destruct (tfTrackers t) as [|a l]; [constructor|]. apply ONE; [cbn [In]; tauto|]. now apply tiers_ok.
    + destruct (tfCreatedBy t); [constructor|]. apply ONE; [cbn [In]; tauto|exact B].
    + destruct (tfCreated t =? 0); [constructor|]. apply ONE; [cbn [In]; tauto|exact C].
  - lia.
  - rewrite <- W. exact L.
  - lia.
Qed.

Lemma meta_reads t e : let d := meta_entries t ++ [(kInfo, BDict e)] in
  textOf kAnnounce d = tfAnnounce t /\ trackers d = (match tfTrackers t with [] => match tfAnnounce t with [] => [] | a => [a] end | l => l end) /\
  textOf kCreatedBy d = tfCreatedBy t /\ numberOf kCreated d = tfCreated t.
Proof.
  assert (T : forall l, concat (map (fun v => match v with BList t => texts t | _ => [] end) (map (fun a => BList [BStr a]) l)) = l) by apply tiers_texts.
  cbv zeta. unfold meta_entries, trackers. destruct (Z.eqb_spec (tfCreated t) 0) as [Z0|Z0]; destruct (tfAnnounce t) as [|a al], (tfTrackers t) as [|x xl], (tfCreatedBy t) as [|b bl];
    refine (conj eq_refl (conj _ (conj eq_refl _))); try reflexivity; try (symmetry; exact Z0); apply (T (x :: xl)).
Qed.

Lemma meta_first t : tfAnnounce t <> kInfo -> tfCreatedBy t <> kInfo -> Forall (fun kv => fst kv <> kInfo /\ snd kv <> BStr kInfo) (meta_entries t).
Proof.
  intros A B. unfold meta_entries. apply Forall_app. split; [|apply Forall_app; split; [|apply Forall_app; split]].
  - destruct (tfAnnounce t); constructor; [|constructor]. split; [discriminate|]. cbn [snd]. congruence.
  - destruct (tfTrackers t); constructor; [|constructor]. split; discriminate.
  - destruct (tfCreatedBy t); constructor; [|constructor]. split; [discriminate|]. cbn [snd]. congruence.
  - destruct (tfCreated t =? 0); constructor; [|constructor]. split; discriminate.
Qed.

(** C78, the part which holds: if the bytes of the info dictionary are known (as for every torrent
    read from a file or from peers) the written file reads back with the same trackers, the same
    creation notes, the same info bytes, so the same info hash, and the info those bytes describe.
    A torrent with an announce address but no tracker list gets that address as its list. *)
Theorem C78_read_back_partial : forall t e c rest fuel, tfData t = bencode (BDict e) -> meta_ok t -> bval_ok (BDict e) -> info_ok e ->
  (exists s, lookup kPieces KStr e = Some s) -> tfAnnounce t <> kInfo -> tfCreatedBy t <> kInfo -> meta_small t e fuel ->
  exists r, parseFile fuel (createTorrentFileData t ++ c :: rest) (zlen (createTorrentFileData t)) = Val r /\
    tfAnnounce r = tfAnnounce t /\ tfTrackers r = (match tfTrackers t with [] => match tfAnnounce t with [] => [] | a => [a] end | l => l end) /\
    tfCreatedBy r = tfCreatedBy t /\ tfCreated r = tfCreated t /\
    tfData r = tfData t /\ tfHash r = Some (sha1 (tfData t)) /\ exists i, tfInfo r = Some i /\ info_of e i.
Proof.
  intros t e c rest fuel D MO EO IO PE A B MS. pose proof (C78_saved_bytes t e D) as W. pose proof (meta_file_ok t e fuel MO EO W MS) as FO.
  destruct (parseFile_all (meta_entries t) e [] c rest fuel FO IO (meta_first t A B) PE) as (r & E & H & DR & RA & RT & RB & RC & I).
  destruct (meta_reads t e) as (LA & LT & LB & LC). rewrite W. exists r. split; [exact E|].
  rewrite RA, RT, RB, RC, LA, LT, LB, LC. repeat (split; [reflexivity|]). rewrite DR, D. split; [reflexivity|]. split; [|exact I].
  rewrite H. f_equal. apply C48_sha1; [now apply bencode_bytes|]. destruct FO as (_ & _ & S & _).
  assert (zlen (bencode (BDict e)) <= zlen (bencode (BDict (meta_entries t ++ [(kInfo, BDict e)])))); [|lia]. apply (inner_length _ kInfo), in_app_iff. right. now left.
Qed.
Print Assumptions C78_read_back_partial.

Definition ex_meta : tfile := {| tfAnnounce := [120]; tfTrackers := [[120]; [121]]; tfInfo := None; tfCreatedBy := [109]; tfCreated := 77; tfHash := None; tfData := bencode (BDict ex_e) |}.
Example C78_example : meta_ok ex_meta /\ bval_ok (BDict ex_e) /\ info_ok ex_e /\ (exists s, lookup kPieces KStr ex_e = Some s) /\ meta_small ex_meta ex_e 300 /\
  match parseFile 300 (createTorrentFileData ex_meta ++ [0]) (zlen (createTorrentFileData ex_meta)) with
  | Val r => tfData r = tfData ex_meta /\ tfTrackers r = [[120]; [121]] /\ tfCreated r = 77
  | _ => False end.
Proof.
  split; [|split; [|split; [|split; [|split]]]].
  - unfold meta_ok, ex_meta. cbn. repeat split; try lia; repeat constructor; unfold is_byte; lia.
  - cbn. repeat split; try lia; unfold bytes_ok; repeat constructor; unfold is_byte; lia.
  - exact (proj1 (proj2 ex_file_ok)).
  - exact (proj2 (proj2 (proj2 ex_file_ok))).
  - unfold meta_small. refine (conj _ (conj _ _)); [vm_compute; reflexivity|vm_compute; reflexivity|]. apply Nat.leb_le. vm_compute. reflexivity.
  - vm_compute. auto.
Qed.

(** ** Torrents whose bytes were not kept *)

Lemma file_app d f : saveFile d f = d ++ bencode (built_file f).
Proof.
  unfold saveFile, built_file. rewrite (fold_app (fun d p => addText d (cstr p)) (fun p => bencode (BStr (cstr p)))) by reflexivity.
  rewrite bencode_dict. cbn [map concat]. unfold benentry, benkey. cbn [fst snd]. rewrite bencode_list, map_map. cbn [bencode].
  change (toString (zlen kLength)) with [54]. change (toString (zlen kPath)) with [52].
  unfold endMap, endArray, startArray, addRawData, rawNumber, addNumber, startMap, addRawData, wPath, wLength. rewrite app_nil_r, <- !app_assoc. reflexivity.
Qed.

(** What is written if the bytes were not kept. *)
Theorem C78_saved_built : forall t i, tfData t = [] -> tfInfo t = Some i ->
  createTorrentFileData t = bencode (BDict (meta_entries t ++ [(kInfo, BDict (built_info i))])).
Proof.
  intros t i D I. unfold createTorrentFileData. rewrite pre_app. cbv zeta. rewrite D, I. unfold endMap at 1.
  assert (H : forall d, saveInfo d i = d ++ benentry (kInfo, BDict (built_info i))).
  { intros d. unfold saveInfo, built_info. unfold benentry at 1. unfold benkey. cbn [fst snd]. rewrite bencode_dict, !map_app, !concat_app. change (toString (zlen kInfo)) with [52].
    assert (F : forall d, match sizedFiles i with [] => d | [f] => rawNumber d wLength (snd f) | fs => endArray (fold_left saveFile fs (startArray (addRawData d wFiles))) end =
      d ++ concat (map benentry (match sizedFiles i with [] => [] | [f] => [(kLength, BInt (snd f))] | fs => [(kFiles, BList (map built_file fs))] end))).
    { intros x. destruct (sizedFiles i) as [|f [|g l]]; [now rewrite app_nil_r| |].
      - cbn [map concat]. unfold benentry, benkey. cbn [fst snd bencode]. change (toString (zlen kLength)) with [54]. unfold rawNumber, addNumber, addRawData, wLength. rewrite app_nil_r, <- !app_assoc. reflexivity.
      - rewrite (fold_app _ _ file_app). generalize (f :: g :: l). clear f g l. intros l. cbn [map concat]. unfold benentry, benkey. cbn [fst snd]. rewrite bencode_list, map_map.
        change (toString (zlen kFiles)) with [53]. unfold endArray, startArray, addRawData, wFiles. rewrite app_nil_r, <- !app_assoc. reflexivity. }
    rewrite F. generalize (concat (map benentry (match sizedFiles i with [] => [] | [f] => [(kLength, BInt (snd f))] | fs => [(kFiles, BList (map built_file fs))] end))). intros fl.
    unfold startMap, addRawData, endMap, rawText, rawNumber, addText, addNumber, addRawData.
    destruct (tiPrivate i); cbn [map concat]; rewrite !benentry_text, !benentry_int; change (toString (zlen kName)) with [52]; change (toString (zlen kPieceLength)) with [49;50];
      change (toString (zlen kPieces)) with [54]; change (toString (zlen kPrivate)) with [55]; unfold wInfo, wName, wPieceLength, wPieces, wPrivate; rewrite ?app_nil_r, <- !app_assoc; reflexivity. }
  rewrite H, (bencode_dict (meta_entries t ++ _)), map_app, concat_app. cbn [map concat]. rewrite app_nil_r, <- !app_assoc. reflexivity.
Qed.
Print Assumptions C78_saved_built.

(** What a torrent holds: bytes and numbers of their types, hashes of 20 bytes, a size per file. *)
Definition tinfo_ok (i : tinfo) : Prop :=
  bytes_ok (tiName i) /\ Forall (fun h => bytes_ok h /\ length h = 20%nat) (tiPieces i) /\ 0 < pieceSize (tiLayout i) < 4294967296 /\
  Forall (fun f => Forall bytes_ok (snd f)) (tiFiles i) /\ Forall (fun f => 0 <= fsize f < 18446744073709551616) (files (tiLayout i)).

Lemma cstr_bytes l : bytes_ok l -> bytes_ok (cstr l).
Proof. induction 1 as [|c l H F IH]; [constructor|]. cbn [cstr]. destruct (c =? 0); constructor; assumption. Qed.

Lemma sized_ok i : tinfo_ok i -> Forall (fun f => Forall bytes_ok (snd (fst f)) /\ 0 <= snd f < 18446744073709551616) (sizedFiles i).
Proof.
  intros (_ & _ & _ & P & S). unfold sizedFiles. rewrite Forall_forall. intros [f s] IN. cbn [fst snd]. pose proof (in_combine_l _ _ _ _ IN) as A. pose proof (in_combine_r _ _ _ _ IN) as B.
  rewrite Forall_forall in P. split; [exact (P f A)|]. apply in_map_iff in B as (x & <- & B). rewrite Forall_forall in S. exact (S x B).
Qed.

Lemma built_ok i : tinfo_ok i -> bval_ok (BDict (built_info i)) /\ info_ok (built_info i) /\ exists s, lookup kPieces KStr (built_info i) = Some s.
Proof.
  intros OK. pose proof (sized_ok i OK) as SO. destruct OK as (N & H & PS & _ & _).
  assert (ONE : forall k v, In k [kAnnounce; kAnnounceList; kCreatedBy; kCreated; kInfo; kFiles; kLength; kPath; kName; kPieceLength; kPieces; kPrivate] -> bval_ok v ->
      bytes_ok (fst (k, v)) /\ bval_ok (snd (k, v))) by (intros k v K V; split; [now apply key_ok|exact V]).
  assert (HB : bytes_ok (concat (tiPieces i))) by (apply Forall_concat; revert H; apply Forall_impl; intros h [B _]; exact B).
  split; [|split].
  - cbn [bval_ok]. apply fold_and. unfold built_info. apply Forall_app. split; [|apply Forall_app; split].
    + destruct (sizedFiles i) as [|f [|g l]]; [constructor| |].
      * constructor; [|constructor]. apply ONE; [cbn [In]; tauto|]. inversion SO as [|? ? [_ X] _]; subst. exact X.
      * constructor; [|constructor]. apply ONE; [cbn [In]; tauto|]. cbn [bval_ok]. apply fold_and, Forall_map. revert SO. apply Forall_impl. intros [[nm p] s] [P S]. cbn [fst snd] in *.
        unfold built_file. cbn [fst snd]. cbn [bval_ok]. apply fold_and. constructor; [|constructor; [|constructor]]; apply ONE; try (cbn [In]; tauto); [exact S|].
        cbn [bval_ok]. apply fold_and, Forall_map. assert (T : Forall bytes_ok (tl p)) by (inversion P; [constructor|assumption]). revert T. apply Forall_impl. intros a. apply cstr_bytes.
    + repeat (apply Forall_cons; [apply ONE; [cbn [In]; tauto|]|]); try apply Forall_nil; cbn [bval_ok]; [exact N|lia|exact HB].
    + destruct (tiPrivate i); [|constructor]. constructor; [|constructor]. apply ONE; [cbn [In]; tauto|cbn; lia].
  - unfold info_ok, built_info, listOf. destruct (sizedFiles i) as [|f [|g l]]; destruct (tiPrivate i); cbn [app]; (split; [exact PS|split; [reflexivity || (cbv; reflexivity)|]]); try exact I;
      cbn [lookup list_eqb kind_of kind_eqb andb Z.eqb Pos.eqb kFiles]; apply Forall_map, Forall_forall; intros [[? ?] ?] _; reflexivity.
  - unfold built_info. destruct (sizedFiles i) as [|f [|g l]]; eexists; reflexivity.
Qed.

Lemma hashes_unique a : forall b, Forall (fun h : list Z => length h = 20%nat) a -> Forall (fun h : list Z => length h = 20%nat) b -> concat a = concat b -> a = b.
Proof.
  induction a as [|x a IH]; intros [|y b] A B E; inversion A as [|? ? LX LA]; inversion B as [|? ? LY LB]; subst; auto.
  - cbn [concat] in E. apply (f_equal (@length Z)) in E. rewrite app_length in E. cbn in E. lia.
  - cbn [concat] in E. apply (f_equal (@length Z)) in E. rewrite app_length in E. cbn in E. lia.
  - cbn [concat] in E. assert (X : x = y). { apply (f_equal (firstn 20)) in E. rewrite <- LX in E at 1. rewrite firstn_app_exact in E. rewrite <- LY in E. now rewrite firstn_app_exact in E. }
    subst y. f_equal. apply IH; try assumption. now apply app_inv_head in E.
Qed.

Lemma hashes_back i l : tinfo_ok i -> hashes_of (concat (tiPieces i)) l -> l = tiPieces i.
Proof.
  intros (_ & H & _) HO. assert (L : Forall (fun h : list Z => length h = 20%nat) (tiPieces i)) by (revert H; apply Forall_impl; intros h [_ X]; exact X).
  assert (M : zlen (concat (tiPieces i)) mod 20 = 0).
  { clear - L. induction L as [|h l X F IH]; [reflexivity|]. cbn [concat]. rewrite zlen_app. unfold zlen at 1. rewrite X. lia. }
  unfold hashes_of in HO. rewrite M in HO. cbn [Z.eqb] in HO. destruct HO as [E F]. now apply hashes_unique.
Qed.

Lemma bool_iff a (n : Z) (b : bool) : (a = true <-> n <> 0) -> n = (if b then 1 else 0) -> a = b.
Proof. intros H ->. destruct b, a; try reflexivity; exfalso; [assert (false = true) by (apply H; lia); discriminate|apply (proj1 H eq_refl); reflexivity]. Qed.

(** C78 for a torrent of one file whose bytes were not kept: name, size, hashes and privacy read
    back, and so the whole layout if it was made by this program. *)
Theorem C78_single_partial : forall t i f c rest fuel, tfData t = [] -> tfInfo t = Some i -> meta_ok t -> tinfo_ok i ->
  tiFiles i = [(tiName i, [])] -> files (tiLayout i) = [f] -> parseSingleFile (pieceSize (tiLayout i)) (fsize f) (zlen (tiPieces i)) = Ok (tiLayout i) ->
  tfAnnounce t <> kInfo -> tfCreatedBy t <> kInfo -> meta_small t (built_info i) fuel ->
  exists r, parseFile fuel (createTorrentFileData t ++ c :: rest) (zlen (createTorrentFileData t)) = Val r /\ tfInfo r = Some i /\
    tfTrackers r = (match tfTrackers t with [] => match tfAnnounce t with [] => [] | a => [a] end | l => l end).
Proof.
  intros t i f c rest fuel D TI MO IO FI FL LA A B MS. pose proof (C78_saved_built t i D TI) as W. destruct (built_ok i IO) as (EO & EI & PE). pose proof (meta_file_ok t (built_info i) fuel MO EO W MS) as FO.
  destruct (parseFile_all (meta_entries t) (built_info i) [] c rest fuel FO EI (meta_first t A B) PE) as (r & E & _ & _ & _ & RT & _ & _ & i' & I1 & I2 & I3 & I4 & I5).
  destruct (meta_reads t (built_info i)) as (_ & LT & _). rewrite W. exists r. split; [exact E|]. rewrite RT, LT. split; [|reflexivity]. rewrite I1. f_equal.
  assert (SF : sizedFiles i = [((tiName i, []), fsize f)]) by (unfold sizedFiles; rewrite FI, FL; reflexivity).
  assert (N : textOf kName (built_info i) = tiName i) by (unfold built_info; rewrite SF; reflexivity).
  assert (P : textOf kPieces (built_info i) = concat (tiPieces i)) by (unfold built_info; rewrite SF; reflexivity).
  assert (V : numberOf kPrivate (built_info i) = if tiPrivate i then 1 else 0) by (unfold built_info; rewrite SF; destruct (tiPrivate i); reflexivity).
  assert (LN : listOf kFiles (built_info i) = None) by (unfold built_info; rewrite SF; destruct (tiPrivate i); reflexivity).
  assert (PL : numberOf kPieceLength (built_info i) = pieceSize (tiLayout i)) by (unfold built_info; rewrite SF; reflexivity).
  assert (SZ : numberOf kLength (built_info i) = fsize f) by (unfold built_info; rewrite SF; reflexivity).
  rewrite N in *. rewrite P in *. rewrite LN, PL, SZ in I5. destruct I5 as [I5 I6]. pose proof (hashes_back i _ IO I3) as HB. rewrite HB in I6. rewrite I6 in LA. injection LA as LA.
  pose proof (bool_iff _ _ _ I4 V) as PV. destruct i, i'. cbn in *. subst. reflexivity.
Qed.
Print Assumptions C78_single_partial.

(** Finding: of a torrent of several files whose bytes were not kept the names of the files are not
    written: each file reads back under the name of its last directory. *)
Theorem C78_names_refuted : forall t i f g l c rest fuel, tfData t = [] -> tfInfo t = Some i -> meta_ok t -> tinfo_ok i -> sizedFiles i = f :: g :: l ->
  tfAnnounce t <> kInfo -> tfCreatedBy t <> kInfo -> meta_small t (built_info i) fuel ->
  exists r i', parseFile fuel (createTorrentFileData t ++ c :: rest) (zlen (createTorrentFileData t)) = Val r /\ tfInfo r = Some i' /\
    tiFiles i' = map (fun x => let p := map cstr (tl (snd (fst x))) in (last p [], tiName i :: removelast p)) (sizedFiles i) /\
    forall name dir, In (name, [dir]) (map fst (sizedFiles i)) -> name <> [] -> tiFiles i' <> map fst (sizedFiles i).
Proof.
  intros t i f g l c rest fuel D TI MO IO SF A B MS. pose proof (C78_saved_built t i D TI) as W. destruct (built_ok i IO) as (EO & EI & PE). pose proof (meta_file_ok t (built_info i) fuel MO EO W MS) as FO.
  destruct (parseFile_all (meta_entries t) (built_info i) [] c rest fuel FO EI (meta_first t A B) PE) as (r & E & _ & _ & _ & RT & _ & _ & i' & I1 & I2 & I3 & I4 & I5).
  rewrite W. exists r, i'. split; [exact E|]. split; [exact I1|].
  assert (N : textOf kName (built_info i) = tiName i) by (unfold built_info; rewrite SF; reflexivity).
  assert (LN : listOf kFiles (built_info i) = Some (map built_file (sizedFiles i))) by (unfold built_info; rewrite SF; reflexivity).
  rewrite LN, N in I5. destruct I5 as [I5 _]. rewrite !map_map in I5.
  assert (X : tiFiles i' = map (fun x => let p := map cstr (tl (snd (fst x))) in (last p [], tiName i :: removelast p)) (sizedFiles i)).
  { rewrite I5. apply map_ext. intros [[nm p] s]. unfold built_file, file_entry, entries, listOf. cbn [fst snd].
    cbn [lookup list_eqb kind_of kind_eqb andb Z.eqb Pos.eqb kLength kPath]. rewrite map_map. reflexivity. }
  split; [exact X|]. intros name dir IN NE EQ. rewrite X in EQ. apply in_map_iff in IN as (x & FX & IN). apply NE.
  assert (Y : (fun x : (list Z * list (list Z)) * Z => let p := map cstr (tl (snd (fst x))) in (last p [], tiName i :: removelast p)) x = fst x).
  { clear - EQ IN. induction (sizedFiles i) as [|y s IH]; [contradiction|]. cbn [map] in EQ. injection EQ as E1 E2. destruct IN as [->|IN]; [|now apply IH]. exact E1. }
  cbv beta zeta in Y. rewrite FX in Y. cbn in Y. injection Y as Y1 Y2. now symmetry.
Qed.
Print Assumptions C78_names_refuted.

Definition ex_layout (ps : Z) (s : list Z) : torrentInfo := match parseMultiFile ps s with Ok l => l | UB => tiLayout noInfo end.
Definition ex_two : tinfo := {| tiPieces := [repeat 7 20]; tiPrivate := true; tiName := [116]; tiFiles := [([97], [[116]]); ([98], [[116]; [100]])]; tiLayout := ex_layout 16 [5; 7] |}.
Definition ex_one : tinfo := {| tiPieces := [repeat 7 20; repeat 8 20]; tiPrivate := false; tiName := [116]; tiFiles := [([116], [])];
  tiLayout := match parseSingleFile 16 30 2 with Ok l => l | UB => tiLayout noInfo end |}.
Definition ex_of (i : tinfo) : tfile := {| tfAnnounce := [120]; tfTrackers := []; tfInfo := Some i; tfCreatedBy := []; tfCreated := 0; tfHash := None; tfData := [] |}.
Lemma ex_small i : tinfo_ok i -> (nodes (BDict (built_info i)) <=? 30)%nat = true -> zlen (createTorrentFileData (ex_of i)) < 2147483648 -> meta_ok (ex_of i) /\ meta_small (ex_of i) (built_info i) 300.
Proof.
  intros _ N L. apply Nat.leb_le in N. split.
  - unfold meta_ok, ex_of. cbn [tfAnnounce tfTrackers tfCreatedBy tfCreated]. split; [repeat constructor; unfold is_byte; lia|]. split; [constructor|]. split; [constructor|lia].
  - unfold meta_small. cbn [ex_of tfTrackers length]. split; [lia|]. split; [exact L|lia].
Qed.
Example C78_single_example : tinfo_ok ex_one /\ meta_ok (ex_of ex_one) /\ meta_small (ex_of ex_one) (built_info ex_one) 300 /\
  parseSingleFile (pieceSize (tiLayout ex_one)) 30 (zlen (tiPieces ex_one)) = Ok (tiLayout ex_one).
Proof.
  assert (T : tinfo_ok ex_one).
  { unfold tinfo_ok, ex_one. repeat (apply conj); repeat (first [apply Forall_nil|apply Forall_cons|apply conj]); unfold is_byte; vm_compute; first [reflexivity|discriminate|split; first [reflexivity|discriminate]]. }
  split; [exact T|]. destruct (ex_small ex_one T) as [A B]; [reflexivity|vm_compute; reflexivity|]. split; [exact A|]. split; [exact B|]. vm_compute. reflexivity.
Qed.
Example C78_names_example : tinfo_ok ex_two /\ meta_ok (ex_of ex_two) /\ meta_small (ex_of ex_two) (built_info ex_two) 300 /\ length (sizedFiles ex_two) = 2%nat /\
  match parseFile 300 (createTorrentFileData (ex_of ex_two) ++ [0]) (zlen (createTorrentFileData (ex_of ex_two))) with
  | Val r => match tfInfo r with Some i => tiFiles i = [([], [[116]]); ([100], [[116]])] | None => False end
  | _ => False end.
Proof.
  assert (T : tinfo_ok ex_two).
  { unfold tinfo_ok, ex_two. repeat (apply conj); repeat (first [apply Forall_nil|apply Forall_cons|apply conj]); unfold is_byte; vm_compute; first [reflexivity|discriminate|split; first [reflexivity|discriminate]]. }
  split; [exact T|]. destruct (ex_small ex_two T) as [A B]; [reflexivity|vm_compute; reflexivity|]. split; [exact A|]. split; [exact B|]. split; vm_compute; reflexivity.
Qed.

(** ** Adding trackers *)

(** Adding trackers keeps those known, in order, adds only new ones the tracker manager took, each
    once, and changes nothing else; a file is written exactly if one was added. *)
Theorem C78_import_trackers : forall ok urls t t' w, importTrackers ok urls t = (t', w) ->
  (exists new, tfTrackers t' = tfTrackers t ++ new /\ NoDup new /\
     forall u, In u new <-> In u urls /\ ~ In u (tfTrackers t) /\ ok u = true) /\
  (w = None <-> tfTrackers t' = tfTrackers t) /\ (forall b, w = Some b -> b = createTorrentFileData t') /\
  tfData t' = tfData t /\ tfInfo t' = tfInfo t /\ tfHash t' = tfHash t /\ tfCreatedBy t' = tfCreatedBy t /\ tfCreated t' = tfCreated t.
Proof.
  intros ok urls t t' w E. unfold importTrackers in E.
  set (step := fun (acc : list (list Z) * bool) u => if existsb (list_eqb u) (fst acc) then acc else if ok u then (fst acc ++ [u], true) else acc) in E.
  assert (K : forall us pre b, exists new, fold_left step us (pre, b) = (pre ++ new, b || negb (match new with [] => true | _ => false end)) /\ NoDup new /\
    forall u, In u new <-> In u us /\ ~ In u pre /\ ok u = true).
  { induction us as [|u us IH]; intros pre b; cbn [fold_left].
    - exists []. rewrite app_nil_r, Bool.orb_false_r. split; [reflexivity|]. split; [constructor|]. cbn. tauto.
    - unfold step at 2. cbn [fst].
      assert (EX : existsb (list_eqb u) pre = true <-> In u pre).
      { rewrite existsb_exists. split; [intros (x & IN & EQ); apply list_eqb_spec in EQ; now subst|intros IN; exists u; split; [exact IN|apply list_eqb_spec; reflexivity]]. }
      destruct (existsb (list_eqb u) pre) eqn:EE.
      + destruct (IH pre b) as (new & F & ND & IFF). exists new. split; [exact F|]. split; [exact ND|]. intros x. rewrite IFF. cbn [In].
        assert (In u pre) by (apply EX; reflexivity). split; [tauto|]. intros ([->|IN] & NI & OK); tauto.
      + assert (NU : ~ In u pre) by (intros X; apply EX in X; congruence). destruct (ok u) eqn:OU.
        * destruct (IH (pre ++ [u]) true) as (new & F & ND & IFF). exists (u :: new). rewrite F, <- app_assoc. cbn [app negb]. rewrite Bool.orb_true_r. split; [reflexivity|]. split.
          { constructor; [|exact ND]. rewrite IFF. rewrite in_app_iff. cbn [In]. tauto. }
          intros x. cbn [In]. rewrite IFF, in_app_iff. cbn [In]. split.
          { intros [->|(A & B & C)]; [auto|]. tauto. }
          intros ([->|IN] & NI & OK); [auto|]. destruct (list_eq_dec Z.eq_dec u x); [auto|]. right. tauto.
        * destruct (IH pre b) as (new & F & ND & IFF). exists new. split; [exact F|]. split; [exact ND|]. intros x. rewrite IFF. cbn [In]. split; [tauto|]. intros ([->|IN] & NI & OK); [congruence|tauto]. }
  destruct (K urls (tfTrackers t) false) as (new & F & ND & IFF). rewrite F in E. cbn [orb] in E. destruct new as [|u new].
  - cbn [negb] in E. injection E as <- <-. split; [exists []; rewrite app_nil_r; auto|]. split; [tauto|]. split; [discriminate|]. tauto.
  - cbn [negb] in E. injection E as <- <-. cbn [tfTrackers tfData tfInfo tfHash tfCreatedBy tfCreated]. split; [exists (u :: new); auto|]. split.
    { split; [discriminate|]. intros X. apply (f_equal (@length (list Z))) in X. rewrite app_length in X. cbn in X. lia. }
    split; [intros b X; now injection X|]. tauto.
Qed.
Print Assumptions C78_import_trackers.

(** The main tracker is kept; when there is none the first of the list becomes it. Without a new tracker nothing changes. *)
Theorem C78_import_main : forall ok urls t t' w, importTrackers ok urls t = (t', w) ->
  (tfAnnounce t <> [] -> tfAnnounce t' = tfAnnounce t) /\ (w = None -> t' = t) /\ (w <> None -> tfAnnounce t = [] -> exists rest, tfTrackers t' = tfAnnounce t' :: rest).
Proof.
  intros ok urls t t' w E. destruct (C78_import_trackers ok urls t t' w E) as ((new & NW & _) & W & _). unfold importTrackers in E. destruct (fold_left _ urls _) as (l, added). destruct added.
  - injection E as <- <-. cbn [tfAnnounce tfTrackers] in *. split; [intros N; now destruct (tfAnnounce t)|]. split; [discriminate|]. intros _ ->. destruct l as [|a l]; [|exists l; reflexivity].
    exfalso. assert (X : tfTrackers t = []) by (symmetry in NW; now apply app_eq_nil in NW).
    destruct W as (_ & W). rewrite X in W. discriminate (W eq_refl).
  - injection E as <- <-. split; [reflexivity|]. split; [reflexivity|]. now intros N.
Qed.
Print Assumptions C78_import_main.

Example C78_import_example : importTrackers (fun u => negb (list_eqb u [9])) [[120]; [9]; [5]; [5]] ex_meta =
  (let t := {| tfAnnounce := [120]; tfTrackers := [[120]; [121]; [5]]; tfInfo := None; tfCreatedBy := [109]; tfCreated := 77; tfHash := None; tfData := bencode (BDict ex_e) |} in (t, Some (createTorrentFileData t))).
Proof. reflexivity. Qed.
