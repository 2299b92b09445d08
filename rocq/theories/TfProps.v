(** C74, C75: reading a .torrent file. *)
From Verif Require Import Base BaseLemmas Dec DecLemmas BencodeModel BencodeSpec BencodeProofs StateModel StateProps LayoutModel ShaModel ShaSpec ShaProofs ShaProps TfModel TfSpec TfProofs TfReads.

Lemma bencode_bytes v : bval_ok v -> bytes_ok (bencode v).
Proof.
  assert (TS : forall n, 0 <= n -> bytes_ok (toString n)).
  { intros n H. apply digits_bytes, toString_ok, H. }
  induction v as [n|s|l IH|d IH] using bval_ind'; intros O.
  - cbn [bencode bval_ok] in *. apply Forall_app. split; [repeat constructor; unfold is_byte; lia|]. apply Forall_app. split; [apply TS; lia|repeat constructor; unfold is_byte; lia].
  - cbn [bencode bval_ok] in *. apply Forall_app. split; [apply TS, zlen_nonneg|]. apply Forall_app. split; [repeat constructor; unfold is_byte; lia|exact O].
  - rewrite bencode_list. cbn [bval_ok] in O. apply fold_and in O. apply Forall_app. split; [repeat constructor; unfold is_byte; lia|]. apply Forall_app. split; [|repeat constructor; unfold is_byte; lia].
    apply Forall_concat, Forall_map. rewrite Forall_forall in *. intros x I. now apply IH, O.
  - rewrite bencode_dict. cbn [bval_ok] in O. apply fold_and in O. apply Forall_app. split; [repeat constructor; unfold is_byte; lia|]. apply Forall_app. split; [|repeat constructor; unfold is_byte; lia].
    apply Forall_concat, Forall_map. rewrite Forall_forall in *. intros x I. destruct (O x I) as [O1 O2]. unfold benentry, benkey. apply Forall_app. split; [|now apply IH].
    apply Forall_app. split; [apply TS, zlen_nonneg|]. apply Forall_app. split; [repeat constructor; unfold is_byte; lia|exact O1].
Qed.

Lemma concat_length_in (l : list (list Z)) x : In x l -> zlen x <= zlen (concat l).
Proof. induction l as [|y l IH]; intros []; cbn [concat]; rewrite zlen_app; [subst; pose proof (zlen_nonneg (concat l)); lia|]. specialize (IH H). pose proof (zlen_nonneg y). lia. Qed.

Lemma inner_length d k v : In (k, v) d -> zlen (bencode v) <= zlen (bencode (BDict d)).
Proof.
  intros I. rewrite bencode_dict, !zlen_app. assert (H : zlen (benentry (k, v)) <= zlen (concat (map benentry d))) by (apply concat_length_in, in_map, I).
  unfold benentry in H at 1. cbn [fst snd] in H. rewrite zlen_app in H. pose proof (zlen_nonneg (benkey k)). change (zlen [100]) with 1. change (zlen [101]) with 1. lia.
Qed.

Lemma dictOf_first d1 e d2 : Forall (fun kv => fst kv <> kInfo /\ snd kv <> BStr kInfo) d1 -> lookup kInfo KDict (d1 ++ (kInfo, BDict e) :: d2) = Some (BDict e).
Proof.
  induction 1 as [|[k v] d1 [H _] F IH]; cbn [app lookup].
  - reflexivity.
  - cbn [fst] in H. destruct (list_eqb kInfo k) eqn:E; [apply list_eqb_spec in E; congruence|]. cbn [andb]. exact IH.
Qed.

Definition file_ok (d : list (list Z * bval)) (fuel : nat) : Prop :=
  bval_ok (BDict d) /\ Z.of_nat (nodes (BDict d)) < 65536 /\ zlen (bencode (BDict d)) < 2147483648 /\ (2 * nodes (BDict d) <= fuel)%nat.

Lemma parseFile_all d1 e d2 c rest fuel : let d := d1 ++ (kInfo, BDict e) :: d2 in file_ok d fuel -> info_ok e ->
  Forall (fun kv => fst kv <> kInfo /\ snd kv <> BStr kInfo) d1 -> (exists s, lookup kPieces KStr e = Some s) ->
  exists r, parseFile fuel (bencode (BDict d) ++ c :: rest) (zlen (bencode (BDict d))) = Val r /\
    tfHash r = Some (SHA1 (bencode (BDict e))) /\ tfData r = bencode (BDict e) /\
    tfAnnounce r = textOf kAnnounce d /\ tfTrackers r = trackers d /\ tfCreatedBy r = textOf kCreatedBy d /\ tfCreated r = numberOf kCreated d /\
    exists i, tfInfo r = Some i /\ info_of e i.
Proof.
  intros d (O & N & S & F) IO CI (v & PE). unfold parseFile.
  destruct (parse_shape (BDict d) c rest fuel (zlen (bencode (BDict d))) O N (Z.le_refl _) S F) as (z & r & E1 & E2 & E3 & E4). rewrite E1. cbn [obind]. rewrite E3, E4, E2. cbn [negb].
  assert (R : reads (bencode (BDict d) ++ c :: rest) (hn z (fl (BDict d) 0 false)) (BDict d) 0).
  { assert (A : at_ (bencode (BDict d) ++ c :: rest) 0 (bencode (BDict d))) by (exists [], (c :: rest); auto).
    pose proof (readable_all _ (BDict d) 0 z [] [] A O) as R. cbn [app length] in R. now rewrite app_nil_r in R. }
  set (objs := hn z (fl (BDict d) 0 false)) in *. set (m := bencode (BDict d) ++ c :: rest) in *.
  assert (T : typeEqb (otyp (nth 0 objs noObj)) TDict = true) by (destruct R as (_ & R & _); rewrite R; reflexivity). rewrite T.
  rewrite (trackers_ok fuel m objs d 0 R) by lia. cbn [obind].
  pose proof (getObject_ok m objs d 0 kInfo KDict fuel R) as G. pose proof (dnodes_length d) as DL. rewrite nodes_dict in *. pose proof (dictOf_first d1 e d2 CI) as DF. fold d in DF. rewrite DF in G. destruct G as (j & G & RJ); [lia|]. change TDict with (otype_of KDict). rewrite G. cbn [obind].
  assert (NE : (nodes (BDict e) <= dnodes d)%nat) by (unfold d; rewrite dnodes_app, dnodes_cons; lia).
  assert (OE : bval_ok (BDict e)). { change (kv_ok d) in O. apply ok_app in O as [_ O]. cbn [map fold_right fst snd] in O. apply O. }
  destruct (parseInfo_ok fuel m objs e j RJ) as (i & I1 & I2); [lia|exact OE|exact IO|]. rewrite I1. cbn [obind].
  rewrite (txt_ok fuel m objs d 0 kCreatedBy R) by lia. cbn [obind]. rewrite (big_ok fuel m objs d 0 kCreated R) by lia. cbn [obind].
  pose proof (lookup_split _ _ _ _ PE) as (e1 & e2 & EE & K & FE). destruct v as [|s| |]; try discriminate.
  assert (IB : infoBytes fuel m objs (zlen (bencode (BDict d))) = Val (Some (bencode (BDict e)))).
  { unfold m, objs, d in *. rewrite EE in *. apply infoBytes_ok; try assumption. }
  rewrite IB. cbn [obind]. eexists. split; [reflexivity|]. cbn [tfHash tfData tfAnnounce tfTrackers tfCreatedBy tfCreated tfInfo fst snd]. repeat split; eauto.
Qed.

(** C74: the hash and the bytes kept of a torrent file (with a readable byte behind it, C01) are
    those of its bencoded info dictionary, byte for byte, whatever comes before, behind, or behind
    the piece hashes in it. Missing: files with a text "info" as a value before (below), and info
    dictionaries without piece hashes. *)
Theorem C74_hash_partial : forall d1 e d2 c rest fuel, let d := d1 ++ (kInfo, BDict e) :: d2 in file_ok d fuel -> info_ok e ->
  Forall (fun kv => fst kv <> kInfo /\ snd kv <> BStr kInfo) d1 -> (exists s, lookup kPieces KStr e = Some s) ->
  exists r, parseFile fuel (bencode (BDict d) ++ c :: rest) (zlen (bencode (BDict d))) = Val r /\
    tfHash r = Some (sha1 (bencode (BDict e))) /\ tfData r = bencode (BDict e).
Proof.
  intros d1 e d2 c rest fuel d FO IO CI PE. destruct (parseFile_all d1 e d2 c rest fuel FO IO CI PE) as (r & E & H & D & _). exists r. fold d in E. split; [exact E|]. split; [|exact D].
  rewrite H. f_equal. destruct FO as (O & N & S & F). assert (OE : bval_ok (BDict e)). { change (kv_ok d) in O. apply ok_app in O as [_ O]. cbn [map fold_right fst snd] in O. apply O. }
  apply C48_sha1; [now apply bencode_bytes|]. assert (zlen (bencode (BDict e)) <= zlen (bencode (BDict d))); [|fold d in S; lia]. apply (inner_length d kInfo). unfold d. apply in_app_iff. right. now left.
Qed.
Print Assumptions C74_hash_partial.

(** C75: the trackers, the name, the hashes of the pieces, whether it is private, and name, path
    and size of each file are those in the file; the pieces are laid out from these sizes (C16). *)
Theorem C75_read_partial : forall d1 e d2 c rest fuel, let d := d1 ++ (kInfo, BDict e) :: d2 in file_ok d fuel -> info_ok e ->
  Forall (fun kv => fst kv <> kInfo /\ snd kv <> BStr kInfo) d1 -> (exists s, lookup kPieces KStr e = Some s) ->
  exists r i, parseFile fuel (bencode (BDict d) ++ c :: rest) (zlen (bencode (BDict d))) = Val r /\
    tfTrackers r = match listOf kAnnounceList d with
                   | Some l => concat (map (fun v => match v with BList t => texts t | _ => [] end) l)
                   | None => match textOf kAnnounce d with [] => [] | a => [a] end
                   end /\
    tfCreatedBy r = textOf kCreatedBy d /\ tfCreated r = numberOf kCreated d /\ tfInfo r = Some i /\
    tiName i = textOf kName e /\ (if zlen (textOf kPieces e) mod 20 =? 0 then concat (tiPieces i) = textOf kPieces e /\ Forall (fun h => length h = 20%nat) (tiPieces i) else tiPieces i = []) /\
    (tiPrivate i = true <-> numberOf kPrivate e <> 0) /\
    match listOf kFiles e with
    | Some l => let fs := map (fun v => file_entry (textOf kName e) (entries v)) l in
        tiFiles i = map fst fs /\ parseMultiFile (numberOf kPieceLength e) (map snd fs) = Ok (tiLayout i)
    | None => tiFiles i = [(textOf kName e, [])] /\ parseSingleFile (numberOf kPieceLength e) (numberOf kLength e) (zlen (tiPieces i)) = Ok (tiLayout i)
    end.
Proof.
  intros d1 e d2 c rest fuel d FO IO CI PE. destruct (parseFile_all d1 e d2 c rest fuel FO IO CI PE) as (r & E & H & D & A & T & B & C & i & TI & I1 & I2 & I3 & I4). exists r, i. fold d in E, A, T, B, C.
  refine (conj E (conj T (conj B (conj C (conj TI (conj I1 (conj I2 (conj I3 I4)))))))).
Qed.
Print Assumptions C75_read_partial.

(** A torrent of two files, with a key behind the piece hashes and trackers in two tiers. *)
Definition ex_e : list (list Z * bval) :=
  [(kFiles, BList [BDict [(kLength, BInt 5); (kPath, BList [BStr [97]; BStr [98]])]; BDict [(kLength, BInt 7); (kPath, BList [BStr [99]])]]);
   (kName, BStr [116]); (kPieceLength, BInt 16); (kPieces, BStr (repeat 7 20)); (kPrivate, BInt 1)].
Definition ex_d1 : list (list Z * bval) := [(kAnnounce, BStr [120]); (kAnnounceList, BList [BList [BStr [120]; BStr [121]]; BList [BStr [122]]])].
Example ex_file_ok : file_ok (ex_d1 ++ (kInfo, BDict ex_e) :: []) 200 /\ info_ok ex_e /\ Forall (fun kv => fst kv <> kInfo /\ snd kv <> BStr kInfo) ex_d1 /\ (exists s, lookup kPieces KStr ex_e = Some s).
Proof.
  split; [|split; [|split]].
  - split; [|split; [|split]]; try (vm_compute; lia || reflexivity).
    cbn. repeat split; try lia; unfold bytes_ok; repeat constructor; unfold is_byte; lia.
  - vm_compute. repeat split; try lia; try discriminate; repeat constructor.
  - repeat constructor; discriminate.
  - eexists. reflexivity.
Qed.
Example ex_read : match parseFile 200 (bencode (BDict (ex_d1 ++ (kInfo, BDict ex_e) :: [])) ++ [0]) (zlen (bencode (BDict (ex_d1 ++ (kInfo, BDict ex_e) :: [])))) with
  | Val r => tfHash r = Some (sha1 (bencode (BDict ex_e))) /\ tfTrackers r = [[120]; [121]; [122]] /\ match tfInfo r with Some i => tiFiles i = [([98], [[116]; [97]]); ([99], [[116]])] | None => False end
  | _ => False end.
Proof. vm_compute. auto. Qed.

(** Finding: a value which is the text "info" is taken for the key. With a comment "info" no hash
    is written at all: the torrent is added with whatever the memory held (C46). *)
Theorem C74_comment_refuted : exists d r, file_ok d 200 /\ lookup kInfo KDict d = Some (BDict ex_e) /\
  parseFile 200 (bencode (BDict d) ++ [0]) (zlen (bencode (BDict d))) = Val r /\ tfHash r = None /\ tfInfo r <> None.
Proof.
  exists [([99;111;109;109;101;110;116], BStr kInfo); (kInfo, BDict ex_e)]. eexists. split; [|split; [reflexivity|split; [vm_compute; reflexivity|split; [reflexivity|discriminate]]]].
  split; [|split; [|split]]; try (vm_compute; lia || reflexivity). cbn. repeat split; try lia; unfold bytes_ok; repeat constructor; unfold is_byte; lia.
Qed.
Print Assumptions C74_comment_refuted.

(** Finding: if this value is the last of the file, a null pointer is used. *)
Theorem C74_last_refuted : exists d, file_ok d 200 /\ parseFile 200 (bencode (BDict d) ++ [0]) (zlen (bencode (BDict d))) = Undef.
Proof.
  exists [([99;111;109;109;101;110;116], BStr kInfo)]. split; [|vm_compute; reflexivity].
  split; [|split; [|split]]; try (vm_compute; lia || reflexivity). cbn. repeat split; try lia; unfold bytes_ok; repeat constructor; unfold is_byte; lia.
Qed.
Print Assumptions C74_last_refuted.

(** Finding: a file list with a text in it makes the reader leave the parsed objects. *)
Theorem C75_files_refuted : exists d, file_ok d 200 /\ parseFile 200 (bencode (BDict d) ++ [0]) (zlen (bencode (BDict d))) = Undef.
Proof.
  exists [(kInfo, BDict [(kPieceLength, BInt 16); (kPieces, BStr (repeat 7 20)); (kFiles, BList [BStr [97]])])]. split; [|vm_compute; reflexivity].
  split; [|split; [|split]]; try (vm_compute; lia || reflexivity). cbn. repeat split; try lia; unfold bytes_ok; repeat constructor; unfold is_byte; lia.
Qed.
Print Assumptions C75_files_refuted.

(** Finding: without a piece length the reader divides by zero. *)
Theorem C75_piece_length_refuted : exists d, file_ok d 200 /\ parseFile 200 (bencode (BDict d) ++ [0]) (zlen (bencode (BDict d))) = Undef.
Proof.
  exists [(kInfo, BDict [(kPieces, BStr (repeat 7 20)); (kLength, BInt 5)])]. split; [|vm_compute; reflexivity].
  split; [|split; [|split]]; try (vm_compute; lia || reflexivity). cbn. repeat split; try lia; unfold bytes_ok; repeat constructor; unfold is_byte; lia.
Qed.
Print Assumptions C75_piece_length_refuted.
