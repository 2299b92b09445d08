From Verif Require Import Base BaseLemmas Dec DecLemmas BencodeModel BencodeSpec BencodeProofs StateModel StateProps LayoutModel ShaModel TfModel TfSpec TfProofs.

Section R.
Variables (fuel : nat) (m : list Z) (objs : list obj).

Lemma lookup_kind k t d v : lookup k t d = Some v -> kind_of v = t.
Proof. intros E. apply lookup_split in E as (? & ? & _ & K & _). exact K. Qed.

Lemma txt_ok d i k : reads m objs (BDict d) i -> (length d <= fuel)%nat -> txtOf fuel m objs i k = Val (textOf k d).
Proof.
  intros R L. unfold textOf. destruct (lookup k KStr d) as [v|] eqn:E.
  - pose proof (lookup_kind _ _ _ _ E) as K. destruct v; try discriminate. eapply txtOf_ok; eauto.
  - pose proof (getObject_ok m objs d i k KStr fuel R L) as G. rewrite E in G. unfold txtOf. change TText with (otype_of KStr). now rewrite G.
Qed.
Lemma big_ok d i k : reads m objs (BDict d) i -> (length d <= fuel)%nat -> bigOf fuel m objs i k = Val (numberOf k d).
Proof.
  intros R L. unfold numberOf. destruct (lookup k KInt d) as [v|] eqn:E.
  - pose proof (lookup_kind _ _ _ _ E) as K. destruct v; try discriminate. eapply bigOf_ok; eauto.
  - pose proof (getObject_ok m objs d i k KInt fuel R L) as G. rewrite E in G. unfold bigOf. change TNumber with (otype_of KInt). now rewrite G.
Qed.
Lemma int_ok d i k : reads m objs (BDict d) i -> (length d <= fuel)%nat -> numberOf k d < 9223372036854775808 -> intOf fuel m objs i k = Val (i32 (numberOf k d)).
Proof.
  intros R L. unfold numberOf. destruct (lookup k KInt d) as [v|] eqn:E.
  - pose proof (lookup_kind _ _ _ _ E) as K. destruct v; try discriminate. intros H. eapply intOf_ok; eauto.
  - intros _. pose proof (getObject_ok m objs d i k KInt fuel R L) as G. rewrite E in G. unfold intOf. change TNumber with (otype_of KInt). now rewrite G.
Qed.

Lemma own_ok v j : reads m objs v j -> ownTxt m objs j = Val (text v).
Proof. unfold ownTxt. destruct v; intros R; cbn [reads] in R; destruct R as (_ & T & R); rewrite T; cbn [typeEqb]; try reflexivity. exact R. Qed.

Fixpoint pairs (l : list bval) : list (bool * list Z) :=
  match l with [] => [] | v :: l' => (match l' with [] => true | _ => false end, text v) :: pairs l' end.

Lemma paths_ok l : forall f a, ritems m objs l a -> (length l <= f)%nat -> exists js, itemsFrom objs f false a = Val js /\ omap (pathItem m objs) js = Val (pairs l).
Proof.
  induction l as [|v l IH]; intros f a R L.
  - destruct a; [contradiction|]. exists []. split; [destruct f; reflexivity|reflexivity].
  - destruct a as [j|]; [|contradiction]. cbn [ritems] in R. destruct R as [R1 R2]. destruct f as [|f]; [cbn in L; lia|]. cbn [itemsFrom].
    destruct (IH f _ R2) as (js & E & F); [cbn [length] in L; lia|]. rewrite E. cbn [obind]. exists (j :: js). split; [reflexivity|].
    cbn [omap pairs]. unfold pathItem at 1. rewrite (own_ok v j R1). cbn [obind]. rewrite F. cbn [obind]. do 3 f_equal.
    unfold getNextSibling in R2. destruct (onext (nth j objs noObj) =? 0); destruct l; auto; contradiction.
Qed.

Lemma pairs_last l : last (map snd (filter fst (pairs l))) [] = last (map text l) [].
Proof.
  destruct l as [|v l]; [reflexivity|]. revert v. induction l as [|w l IH]; intros v; [reflexivity|].
  change (pairs (v :: w :: l)) with ((false, text v) :: pairs (w :: l)). cbn [filter fst]. rewrite IH. reflexivity.
Qed.
Lemma pairs_init l : map snd (filter (fun x => negb (fst x)) (pairs l)) = removelast (map text l).
Proof.
  destruct l as [|v l]; [reflexivity|]. revert v. induction l as [|w l IH]; intros v; [reflexivity|].
  change (pairs (v :: w :: l)) with ((false, text v) :: pairs (w :: l)). cbn [filter fst negb map snd]. rewrite IH. reflexivity.
Qed.

Lemma lookup_nodes k t d v : lookup k t d = Some v -> (S (nodes v) <= dnodes d)%nat.
Proof. intros E. apply lookup_split in E as (d1 & d2 & -> & _). rewrite dnodes_app, dnodes_cons. lia. Qed.

Lemma loadFile_ok nm f j : reads m objs (BDict f) j -> (nodes (BDict f) <= fuel)%nat -> loadFile fuel m objs nm j = Val (file_entry nm f).
Proof.
  intros R L. rewrite nodes_dict in L. pose proof (dnodes_length f) as DL. unfold loadFile, file_entry, listOf.
  pose proof (getObject_ok m objs f j kPath KList fuel R) as G. change TList with (otype_of KList). destruct (lookup kPath KList f) as [v|] eqn:E.
  - pose proof (lookup_kind _ _ _ _ E) as K. destruct v as [| |l|]; try discriminate. destruct G as (k & G & RK); [lia|]. rewrite G. cbn [obind].
    apply reads_list in RK as (_ & _ & _ & RI). apply lookup_nodes in E. cbn [nodes] in E. pose proof (length_nodes l).
    destruct (paths_ok l fuel _ RI) as (js & E1 & E2); [lia|]. rewrite E1. cbn [obind]. rewrite E2. cbn [obind].
    rewrite (big_ok f j kLength R) by lia. cbn [obind]. now rewrite pairs_last, pairs_init.
  - rewrite G by lia. cbn [obind]. rewrite (big_ok f j kLength R) by lia. reflexivity.
Qed.

Lemma hashesOf_ok t : zlen t mod 20 = 0 -> concat (hashesOf (Z.to_nat (zlen t / 20)) t) = t /\ Forall (fun h => length h = 20%nat) (hashesOf (Z.to_nat (zlen t / 20)) t).
Proof.
  intros H. assert (E : length t = (20 * Z.to_nat (zlen t / 20))%nat) by (unfold zlen in *; lia). revert E. generalize (Z.to_nat (zlen t / 20)). clear H. intros n. revert t.
  induction n as [|n IH]; intros t E; cbn [hashesOf].
  - destruct t; [split; [reflexivity|constructor]|cbn in E; lia].
  - destruct (IH (skipn 20 t)) as [A B]; [rewrite skipn_length; lia|]. split; [cbn [concat]; rewrite A; apply firstn_skipn|]. constructor; [rewrite firstn_length; lia|exact B].
Qed.

(** A piece length which is not 0 in 32 bits, numbers the machine can read, and files which are
    dictionaries. *)
Definition info_ok (e : list (list Z * bval)) : Prop :=
  0 < numberOf kPieceLength e < 4294967296 /\ numberOf kPrivate e < 2147483648 /\
  match listOf kFiles e with Some l => Forall (fun v => kind_of v = KDict) l | None => True end.

Definition info_of (e : list (list Z * bval)) (i : tinfo) : Prop :=
  tiName i = textOf kName e /\ hashes_of (textOf kPieces e) (tiPieces i) /\ (tiPrivate i = true <-> numberOf kPrivate e <> 0) /\
  match listOf kFiles e with
  | Some l => let fs := map (fun v => file_entry (textOf kName e) (entries v)) l in
      tiFiles i = map fst fs /\ parseMultiFile (numberOf kPieceLength e) (map snd fs) = Ok (tiLayout i)
  | None => tiFiles i = [(textOf kName e, [])] /\ parseSingleFile (numberOf kPieceLength e) (numberOf kLength e) (zlen (tiPieces i)) = Ok (tiLayout i)
  end.

Lemma number_nonneg e k : bval_ok (BDict e) -> 0 <= numberOf k e.
Proof.
  intros O. unfold numberOf. destruct (lookup k KInt e) as [v|] eqn:E; [|lia]. apply lookup_split in E as (d1 & d2 & -> & K & _). destruct v; try discriminate.
  change (kv_ok (d1 ++ (k, BInt n) :: d2)) in O. apply ok_app in O as [_ O]. cbn [map fold_right fst snd bval_ok] in O. lia.
Qed.

Lemma parseInfo_ok e i : reads m objs (BDict e) i -> (nodes (BDict e) <= fuel)%nat -> bval_ok (BDict e) -> info_ok e ->
  exists t, parseTorrentInfo fuel m objs i = Val t /\ info_of e t.
Proof.
  intros R L O (OP & OV & OF). rewrite nodes_dict in L. pose proof (dnodes_length e) as DL. pose proof (number_nonneg e kPrivate O) as NP. unfold parseTorrentInfo.
  rewrite (int_ok e i kPieceLength R) by lia. cbn [obind].
  assert (PC : exists ps, hashes_of (textOf kPieces e) ps /\ forall (X : Type) (g : list (list Z) -> out X),
    obind (getObject fuel m objs i kPieces TText) (fun op => obind (match op with
         | None => Val []
         | Some j => obind (itemText m (nth j objs noObj)) (fun t => Val (if zlen t mod 20 =? 0 then hashesOf (Z.to_nat (zlen t / 20)) t else []))
         end) g) = g ps).
  { pose proof (getObject_ok m objs e i kPieces KStr fuel R) as G. unfold textOf. destruct (lookup kPieces KStr e) as [v|] eqn:E.
    - pose proof (lookup_kind _ _ _ _ E) as K. destruct v as [|s| |]; try discriminate. destruct G as (k & G & RK); [lia|].
      exists (if zlen s mod 20 =? 0 then hashesOf (Z.to_nat (zlen s / 20)) s else []). split.
      + unfold hashes_of. destruct (Z.eqb_spec (zlen s mod 20) 0) as [X|X]; [now apply hashesOf_ok|reflexivity].
      + intros X g. change TText with (otype_of KStr). rewrite G. cbn [obind]. destruct RK as (_ & _ & RK). rewrite RK. cbn [obind]. reflexivity.
    - exists []. split; [unfold hashes_of; split; [reflexivity|constructor]|]. intros X g. change TText with (otype_of KStr). rewrite G by lia. reflexivity. }
  destruct PC as (ps & PH & PC). rewrite PC. rewrite (int_ok e i kPrivate R) by lia. cbn [obind].
  assert (PV : i32 (numberOf kPrivate e) = numberOf kPrivate e) by (unfold i32; lia). rewrite PV.
  assert (PL : u32 (i32 (numberOf kPieceLength e)) = numberOf kPieceLength e) by (apply u32_i32; lia). rewrite PL.
  assert (PB : negb (numberOf kPrivate e =? 0) = true <-> numberOf kPrivate e <> 0) by (destruct (Z.eqb_spec (numberOf kPrivate e) 0); cbn; split; congruence).
  pose proof (getObject_ok m objs e i kFiles KList fuel R) as G. unfold info_of, listOf in *. change TList with (otype_of KList). destruct (lookup kFiles KList e) as [v|] eqn:E.
  - pose proof (lookup_kind _ _ _ _ E) as K. destruct v as [| |l|]; try discriminate. destruct G as (k & G & RK); [lia|]. rewrite G. cbn [obind].
    rewrite (txt_ok e i kName R) by lia. cbn [obind]. apply reads_list in RK as (_ & _ & _ & RI). apply lookup_nodes in E. cbn [nodes] in E. pose proof (length_nodes l).
    destruct (itemsFrom_ok m objs l fuel _ RI) as (js & E1 & E2); [lia|]. rewrite E1. cbn [obind].
    rewrite (omap_ok (fun j v => reads m objs v j) _ (fun v => file_entry (textOf kName e) (entries v)) l js E2).
    2:{ intros j v IN RV. rewrite Forall_forall in OF. specialize (OF v IN). destruct v as [| | |f]; try discriminate. cbn [entries]. apply loadFile_ok; [exact RV|].
        pose proof (list_nodes l _ IN). lia. }
    cbn [obind]. set (fs := map (fun v => file_entry (textOf kName e) (entries v)) l). cbn zeta.
    unfold parseMultiFile. destruct (Z.eqb_spec (numberOf kPieceLength e) 0); [lia|]. cbn [andb]. destruct (makeFiles (numberOf kPieceLength e) 0 (map snd fs)) as [a b]. cbn [lift obind].
    eexists. split; [reflexivity|]. cbn [tiName tiPieces tiPrivate tiFiles tiLayout]. auto.
  - rewrite G by lia. cbn [obind]. rewrite (txt_ok e i kName R) by lia. cbn [obind]. rewrite (big_ok e i kLength R) by lia. cbn [obind].
    unfold parseSingleFile. destruct (Z.eqb_spec (numberOf kPieceLength e) 0); [lia|]. cbn [lift obind].
    eexists. split; [reflexivity|]. cbn [tiName tiPieces tiPrivate tiFiles tiLayout]. auto.
Qed.

Lemma tier_ok v j : reads m objs v j -> (nodes v <= fuel)%nat -> trackerTier fuel m objs j = Val (match v with BList t => texts t | _ => [] end).
Proof.
  intros R L. unfold trackerTier. destruct v as [n|s|l|d]; [destruct R as (_ & T & _); rewrite T; reflexivity|destruct R as (_ & T & _); rewrite T; reflexivity| |destruct R as (_ & T & _); rewrite T; reflexivity].
  apply reads_list in R as (_ & T & _ & RI). rewrite T. cbn [typeEqb]. cbn [nodes] in L. pose proof (length_nodes l).
  destruct (itemsFrom_ok m objs l fuel _ RI) as (js & E1 & E2); [lia|]. rewrite E1. cbn [obind].
  rewrite (omap_ok (fun j v => reads m objs v j) _ (fun v => match v with BStr s => [s] | _ => [] end) l js E2); [reflexivity|].
  intros k v _ RV. destruct v; destruct RV as (_ & TV & RV); rewrite TV; cbn [typeEqb]; try reflexivity. rewrite RV. reflexivity.
Qed.

Lemma trackers_ok d i : reads m objs (BDict d) i -> (nodes (BDict d) <= fuel)%nat -> loadTrackers fuel m objs i = Val (textOf kAnnounce d, trackers d).
Proof.
  intros R L. rewrite nodes_dict in L. pose proof (dnodes_length d) as DL. unfold loadTrackers, trackers, listOf. rewrite (txt_ok d i kAnnounce R) by lia. cbn [obind].
  pose proof (getObject_ok m objs d i kAnnounceList KList fuel R) as G. change TList with (otype_of KList). destruct (lookup kAnnounceList KList d) as [v|] eqn:E.
  - pose proof (lookup_kind _ _ _ _ E) as K. destruct v as [| |l|]; try discriminate. destruct G as (k & G & RK); [lia|]. rewrite G. cbn [obind].
    apply reads_list in RK as (_ & _ & _ & RI). apply lookup_nodes in E. cbn [nodes] in E. pose proof (length_nodes l).
    destruct (itemsFrom_ok m objs l fuel _ RI) as (js & E1 & E2); [lia|]. rewrite E1. cbn [obind].
    rewrite (omap_ok (fun j v => reads m objs v j) _ (fun v => match v with BList t => texts t | _ => [] end) l js E2); [reflexivity|].
    intros j v IN RV. apply tier_ok; [exact RV|]. pose proof (list_nodes l _ IN). lia.
  - rewrite G by lia. cbn [obind]. destruct (textOf kAnnounce d); reflexivity.
Qed.

End R.
