From Verif Require Import Base BaseLemmas Dec DecLemmas PacketModel PacketProofs AddrModel AddrProofs BencodeModel BencodeSpec BencodeProofs StateModel StateProps TfSpec TfProofs TfReads NodeModel TableModel.
From Verif Require Import BencodeSpec DhtMsgModel DhtMsgSpec.
From Verif Require QueryModel.
From Coq Require Import String. From Coq Require Import List. Import ListNotations.
Local Close Scope string_scope.

Lemma skipn_skipn {A} a b (l : list A) : skipn a (skipn b l) = skipn (b + a) l.
Proof. revert l. induction b as [|b IH]; intros l; [reflexivity|]. destruct l; [now rewrite !skipn_nil|]. apply IH. Qed.

Section P.
Variables (fuel : nat) (m : list Z) (objs : list obj) (junk : list Z).

(** a text of the message in memory *)
Lemma item_size o s : itemText m o = Val s -> osize o = zlen s /\ 0 <= odata o /\ odata o + zlen s <= zlen m /\ s = slice (Z.to_nat (odata o)) (List.length s) m.
Proof.
  unfold itemText. destruct ((0 <=? osize o) && (0 <=? odata o) && (odata o + osize o <=? zlen m)) eqn:E; [|discriminate]. intros H. injection H as H.
  apply andb_prop in E as [E E3]. apply andb_prop in E as [E1 E2]. apply Z.leb_le in E1, E2, E3.
  assert (L : List.length s = Z.to_nat (osize o)) by (rewrite <- H; apply slice_length; unfold zlen in E3; lia).
  assert (Z : osize o = zlen s) by (unfold zlen; lia). repeat split; try lia. rewrite L. now symmetry.
Qed.

Lemma memAt_item o s k n : itemText m o = Val s -> (k + n <= List.length s)%nat -> memAt m (odata o + Z.of_nat k) n = Val (slice k n s).
Proof.
  intros H L. apply item_size in H as (_ & H2 & H3 & H4). unfold memAt. unfold zlen in H3.
  destruct (Z.leb_spec 0 (odata o + Z.of_nat k)); [|lia]. destruct (Z.leb_spec (odata o + Z.of_nat k + Z.of_nat n) (zlen m)); [|unfold zlen in *; lia]. cbn [andb]. f_equal.
  rewrite H4. unfold slice. rewrite skipn_firstn_comm, skipn_skipn, firstn_firstn. f_equal; [lia|]. f_equal. lia.
Qed.

Lemma memAt_item0 o s n : itemText m o = Val s -> (n <= List.length s)%nat -> memAt m (odata o) n = Val (firstn n s).
Proof. intros H L. rewrite <- (Z.add_0_r (odata o)). change 0 with (Z.of_nat 0) at 1. rewrite (memAt_item o s 0 n H) by lia. reflexivity. Qed.

Lemma item_equals o s name : itemText m o = Val s -> itemEquals m o name = Val (list_eqb name s).
Proof.
  intros H. pose proof (item_size o s H) as (S & _). unfold itemEquals. rewrite S. destruct (Z.eqb_spec (zlen name) (zlen s)) as [E|E]; cbn [negb].
  - now rewrite H.
  - destruct (list_eqb name s) eqn:Q; [|reflexivity]. apply list_eqb_spec in Q. subst. contradiction.
Qed.

Lemma txtItem_ok d i k : reads m objs (BDict d) i -> (List.length d <= fuel)%nat ->
  match lookup k KStr d with
  | Some (BStr s) => exists o, txtItem fuel m objs i k = Val (Some o) /\ itemText m o = Val s
  | _ => txtItem fuel m objs i k = Val None
  end.
Proof.
  intros R L. unfold txtItem. pose proof (getObject_ok m objs d i k KStr fuel R L) as G. change TText with (otype_of KStr).
  destruct (lookup k KStr d) as [v|] eqn:E.
  - pose proof (lookup_kind _ _ _ _ E) as K. destruct v; try discriminate. destruct G as (j & G & RJ). rewrite G. cbn [obind option_map]. exists (nth j objs noObj). split; [reflexivity|apply RJ].
  - now rewrite G.
Qed.

(** nodes *)
Lemma wire_length v6 c : contact_ok v6 c -> List.length (wire c) = (22 + addrSize v6)%nat.
Proof. intros (H1 & H2 & _). unfold wire. rewrite !app_length, H1, H2, be_length. destruct v6; reflexivity. Qed.

Definition node_of (v6 : bool) (c : contact) : nodeInfo :=
  {| id := fst (fst c); addrBytes := putBytes (repeat 0 16) (snd (fst c)) (ip_length v6); port := snd c; ipv6 := v6 |}.

Lemma node_of_view v6 c : contact_ok v6 c -> node_view (node_of v6 c) = (v6, c).
Proof.
  intros (H1 & H2 & _). destruct c as [[i ip] p]. unfold node_view, node_of, contact in *. cbn [fst snd id addrBytes port ipv6] in *. rewrite putBytes_first by lia. rewrite <- H2, firstn_all. reflexivity.
Qed.

Lemma parseNode_ok v6 c : contact_ok v6 c -> parseNode (wire c) v6 = Val (node_of v6 c).
Proof.
  intros (H1 & H2 & H3). destruct c as [[i ip] p]. cbn [fst snd] in *. unfold parseNode, parseAddr, wire, node_of. cbn [fst snd].
  rewrite skipn_app_len by lia. rewrite firstn_app_len by lia.
  assert (L : List.length (ip ++ be 2 p) = (addrSize v6 + 2)%nat) by (rewrite app_length, be_length, H2; destruct v6; reflexivity).
  rewrite L, Nat.leb_refl. cbn [AddrModel.addrBytes AddrModel.port AddrModel.ipv6]. f_equal. f_equal.
  - unfold putBytes. replace (addrSize v6) with (ip_length v6) by (destruct v6; reflexivity). f_equal. rewrite firstn_app_len by lia. rewrite <- H2. symmetry. apply firstn_all.
  - replace (addrSize v6) with (List.length ip) by (rewrite H2; destruct v6; reflexivity).
    replace (slice (List.length ip) 2 (ip ++ be 2 p)) with (be 2 p) by (unfold slice; rewrite skipn_app_exact; symmetry; rewrite <- (be_length 2 p) at 1; apply firstn_all).
    rewrite bswap_unle; [apply unbe_be; cbn; lia|apply be_length|apply be_bytes].
Qed.

Definition addNode (acc : list nodeInfo) (i : nodeInfo) : list nodeInfo := if QueryModel.hasNode acc i then acc else acc ++ [i].

Lemma nodesLoop_ok v6 cs : forall f p acc, Forall (contact_ok v6) cs -> 0 <= p ->
  p + zlen (concat (map wire cs)) <= zlen m -> slice (Z.to_nat p) (List.length (concat (map wire cs))) m = concat (map wire cs) ->
  (List.length cs <= f)%nat ->
  nodesLoop f m p (zlen (concat (map wire cs))) v6 acc = Val (fold_left addNode (map (node_of v6) cs) acc).
Proof.
  induction cs as [|c cs IH]; intros f p acc F P B S L.
  - cbn [map concat fold_left]. destruct f; reflexivity.
  - inversion F as [|? ? F1 F2]; subst. cbn [map concat] in *. rewrite app_length in S. rewrite zlen_app in *.
    pose proof (wire_length v6 c F1) as W. destruct f as [|f]; [cbn in L; lia|]. cbn [nodesLoop].
    pose proof (zlen_nonneg (concat (map wire cs))) as NN.
    assert (WZ : zlen (wire c) = 22 + Z.of_nat (addrSize v6)) by (unfold zlen; lia).
    destruct (Z.ltb_spec 0 (zlen (wire c) + zlen (concat (map wire cs)))); [|lia].
    assert (S1 : slice (Z.to_nat p) (22 + addrSize v6) m = wire c /\ slice (Z.to_nat p + (22 + addrSize v6)) (List.length (concat (map wire cs))) m = concat (map wire cs)).
    { rewrite W in S. unfold slice in *. split.
      - apply (f_equal (firstn (22 + addrSize v6))) in S. rewrite firstn_firstn, Nat.min_l, firstn_app_len in S by lia. exact S.
      - apply (f_equal (skipn (22 + addrSize v6))) in S. rewrite skipn_firstn_comm, skipn_skipn, skipn_app_len in S by lia.
        rewrite <- S at 2. rewrite (Nat.add_comm (Z.to_nat p)). f_equal. lia. }
    destruct S1 as [S1 S2]. unfold memAt at 1. rewrite Nat2Z.inj_add. destruct (Z.leb_spec 0 p); [|lia]. destruct (Z.leb_spec (p + (Z.of_nat 22 + Z.of_nat (addrSize v6))) (zlen m)); [|lia].
    cbn [andb]. rewrite S1. cbn [obind]. rewrite parseNode_ok by assumption. cbn [obind].
    replace (zlen (wire c) + zlen (concat (map wire cs)) - (Z.of_nat 22 + Z.of_nat (addrSize v6))) with (zlen (concat (map wire cs))) by lia.
    rewrite IH; [reflexivity|assumption|lia|lia| |cbn in L; lia].
    replace (Z.to_nat (p + (Z.of_nat 22 + Z.of_nat (addrSize v6)))) with (Z.to_nat p + (22 + addrSize v6))%nat by lia. exact S2.
Qed.

Lemma nodesItem_ok v6 cs o acc : Forall (contact_ok v6) cs -> itemText m o = Val (concat (map wire cs)) ->
  nodesLoop (Z.to_nat (osize o)) m (odata o) (osize o) v6 acc = Val (fold_left addNode (map (node_of v6) cs) acc).
Proof.
  intros F H. apply item_size in H as (S & P & B & E). rewrite S. apply nodesLoop_ok; try assumption; [now symmetry|].
  assert (K : (List.length cs <= List.length (concat (map wire cs)))%nat); [|unfold zlen; lia].
  clear - F. induction F as [|c cs F1 F IH]; [cbn; lia|]. cbn [map concat]. rewrite app_length, (wire_length v6 c F1). cbn [List.length]. lia.
Qed.

Lemma hasNode_view acc v6 c : Forall (fun n => List.length (id n) = 20%nat) acc -> contact_ok v6 c ->
  QueryModel.hasNode acc (node_of v6 c) = existsb (list_eqb (fst (fst c))) (map (fun n => id n) acc).
Proof.
  intros F (H & _). unfold QueryModel.hasNode. induction F as [|n acc F1 F IH]; [reflexivity|]. cbn [existsb map]. rewrite IH. f_equal.
  cbn [node_of id]. unfold NodeModel.idEq. rewrite <- F1 at 1. rewrite firstn_all. rewrite <- H at 1. rewrite firstn_all.
  destruct (list_eqb (id n) (fst (fst c))) eqn:E, (list_eqb (fst (fst c)) (id n)) eqn:E2; try reflexivity.
  - apply list_eqb_spec in E. symmetry in E. apply list_eqb_spec in E. congruence.
  - apply list_eqb_spec in E2. symmetry in E2. apply list_eqb_spec in E2. congruence.
Qed.

Lemma firsts_ext have have' l : (forall i, existsb (list_eqb i) have = existsb (list_eqb i) have') -> firsts have l = firsts have' l.
Proof.
  revert have have'. induction l as [|c l IH]; intros have have' H; [reflexivity|]. cbn [firsts]. rewrite H. destruct (existsb _ have'); [now apply IH|]. f_equal. apply IH. intros i. cbn [existsb]. now rewrite H.
Qed.

Lemma fold_firsts v6 cs : forall acc, Forall (contact_ok v6) cs -> Forall (fun n => List.length (id n) = 20%nat) acc ->
  map node_view (fold_left addNode (map (node_of v6) cs) acc) = map node_view acc ++ firsts (map (fun n => id n) acc) (map (pair v6) cs) /\
  Forall (fun n => List.length (id n) = 20%nat) (fold_left addNode (map (node_of v6) cs) acc).
Proof.
  induction cs as [|c cs IH]; intros acc F A; cbn [map fold_left firsts].
  - rewrite app_nil_r. auto.
  - inversion F as [|? ? F1 F2]; subst. unfold addNode at 2 4. rewrite hasNode_view by assumption. cbn [fst snd].
    destruct (existsb (list_eqb (fst (fst c))) (map (fun n => id n) acc)) eqn:E.
    + now apply IH.
    + destruct (IH (acc ++ [node_of v6 c]) F2) as [I1 I2]; [apply Forall_app; split; [assumption|apply Forall_cons; [apply F1|apply Forall_nil]]|].
      split; [|exact I2]. rewrite I1, !map_app, <- app_assoc. cbn [map app]. rewrite node_of_view by assumption. f_equal. f_equal.
      apply firsts_ext. intros i. rewrite existsb_app. cbn [existsb node_of id]. rewrite orb_false_r. apply orb_comm.
Qed.

Lemma firsts_app have a b : firsts have (a ++ b) = firsts have a ++ firsts (map (fun c => fst (fst (snd c))) (firsts have a) ++ have) b.
Proof.
  revert have. induction a as [|c a IH]; intros have; [reflexivity|]. cbn [app firsts]. destruct (existsb _ have); [apply IH|]. cbn [app map]. f_equal. rewrite IH. f_equal. apply firsts_ext.
  intros i. cbn [existsb]. rewrite !existsb_app. cbn [existsb]. rewrite !orb_assoc. f_equal. apply orb_comm.
Qed.

Lemma lookup_text k d s : textOf k d = s -> match lookup k KStr d with Some (BStr t) => t = s | Some _ => False | None => s = [] end.
Proof. unfold textOf. destruct (lookup k KStr d) as [v|] eqn:E; [|auto]. pose proof (lookup_kind _ _ _ _ E). destruct v; try discriminate. auto. Qed.

Lemma readNodes_ok e i ns ns6 : reads m objs (BDict e) i -> (List.length e <= fuel)%nat ->
  Forall (contact_ok false) ns -> Forall (contact_ok true) ns6 ->
  textOf (lit "nodes") e = concat (map wire ns) -> textOf (lit "nodes6") e = concat (map wire ns6) ->
  exists l, readNodes fuel m objs i = Val l /\ map node_view l = firsts [] (map (pair false) ns ++ map (pair true) ns6).
Proof.
  intros R L F4 F6 T4 T6. unfold readNodes. pose proof (txtItem_ok e i (lit "nodes") R L) as G4. pose proof (txtItem_ok e i (lit "nodes6") R L) as G6.
  apply lookup_text in T4. apply lookup_text in T6.
  assert (E4 : exists o, txtItem fuel m objs i (lit "nodes") = Val o /\
     (match o with None => Val [] | Some t => nodesLoop (Z.to_nat (osize t)) m (odata t) (osize t) false [] end) = Val (fold_left addNode (map (node_of false) ns) [])).
  { destruct (lookup (lit "nodes") KStr e) as [v|].
    - destruct v; try contradiction. subst. destruct G4 as (o & -> & IT). exists (Some o). split; [reflexivity|]. now apply nodesItem_ok.
    - exists None. split; [exact G4|]. destruct ns as [|c ns]; [reflexivity|]. exfalso. inversion F4 as [|? ? F1 _]; subst. apply wire_length in F1. cbn [map concat] in T4. apply (f_equal (@List.length Z)) in T4. rewrite app_length, F1 in T4. cbn in T4. lia. }
  destruct E4 as (o & E4 & E4'). rewrite E4. cbn [obind]. rewrite E4'. cbn [obind].
  destruct (fold_firsts false ns [] F4 ltac:(apply Forall_nil)) as [V4 L4]. cbn [map app] in V4.
  assert (E6 : exists o, txtItem fuel m objs i (lit "nodes6") = Val o /\
     (match o with None => Val (fold_left addNode (map (node_of false) ns) []) | Some t => nodesLoop (Z.to_nat (osize t)) m (odata t) (osize t) true (fold_left addNode (map (node_of false) ns) []) end)
     = Val (fold_left addNode (map (node_of true) ns6) (fold_left addNode (map (node_of false) ns) []))).
  { destruct (lookup (lit "nodes6") KStr e) as [v|].
    - destruct v; try contradiction. subst. destruct G6 as (o6 & -> & IT). exists (Some o6). split; [reflexivity|]. now apply nodesItem_ok.
    - exists None. split; [exact G6|]. destruct ns6 as [|c ns6]; [reflexivity|]. exfalso. inversion F6 as [|? ? F1 _]; subst. apply wire_length in F1. cbn [map concat] in T6. apply (f_equal (@List.length Z)) in T6. rewrite app_length, F1 in T6. cbn in T6. lia. }
  destruct E6 as (o6 & E6 & E6'). rewrite E6. cbn [obind]. rewrite E6'. eexists. split; [reflexivity|].
  destruct (fold_firsts true ns6 _ F6 L4) as [V6 _]. rewrite V6, V4, firsts_app. f_equal. apply firsts_ext. intros x.
  rewrite app_nil_r, <- V4, map_map. reflexivity.
Qed.

(** peers *)
Lemma readValue_ok v j : reads m objs v j -> peer_ok v -> bval_ok v ->
  exists l, readValue m objs junk j = Val l /\ map addr_view l = match v with BStr s => [peer_of s] | _ => [] end.
Proof.
  intros R P O. unfold readValue. destruct v as [n|s|l|d]; cbn [reads] in R; destruct R as (_ & T & R); rewrite T; cbn [typeEqb]; try (exists []; split; reflexivity).
  pose proof (item_size _ _ R) as (S & _). rewrite S. cbn [peer_ok bval_ok] in *.
  assert (Q : (18 <=? zlen s) = Nat.eqb (List.length s) 18 /\ List.length s = (addrSize (18 <=? zlen s)%Z + 2)%nat).
  { unfold zlen. destruct P as [-> | ->]; split; reflexivity. }
  destruct Q as [Q1 Q2]. set (v6 := 18 <=? zlen s) in *. rewrite (memAt_item0 _ s) by (auto; lia). cbn [obind]. rewrite <- Q2, firstn_all. unfold parseAddr. rewrite <- Q2, Nat.leb_refl.
  eexists. split; [reflexivity|]. cbn [map]. unfold addr_view, peer_of. cbn [AddrModel.ipv6 AddrModel.addrBytes AddrModel.port]. rewrite <- Q1. f_equal. f_equal.
  assert (N : (List.length s - 2)%nat = addrSize v6) by lia. rewrite N. f_equal.
  - replace (ip_length v6) with (addrSize v6) by (destruct v6; reflexivity). rewrite putBytes_first by lia. reflexivity.
  - replace (slice (addrSize v6) 2 s) with (skipn (addrSize v6) s) by (unfold slice; symmetry; rewrite <- (firstn_all (skipn (addrSize v6) s)) at 2; f_equal; rewrite skipn_length; lia).
    apply bswap_unle; [rewrite skipn_length; lia|]. rewrite <- (firstn_skipn (addrSize v6) s) in O. now apply bytes_ok_app in O.
Qed.

Lemma readValues_ok e i : reads m objs (BDict e) i -> (nodes (BDict e) <= fuel)%nat -> bval_ok (BDict e) ->
  (match listOf (lit "values") e with Some l => Forall peer_ok l | None => True end) ->
  exists l, readValues fuel m objs junk i = Val l /\ map addr_view l = map peer_of (match listOf (lit "values") e with Some l => texts l | None => [] end).
Proof.
  intros R L O P. rewrite nodes_dict in L. pose proof (dnodes_length e) as DL. unfold readValues, listOf in *.
  pose proof (getObject_ok m objs e i (lit "values") KList fuel R) as G. change TList with (otype_of KList).
  destruct (lookup (lit "values") KList e) as [v|] eqn:E.
  - pose proof (lookup_kind _ _ _ _ E) as K. pose proof (lookup_nodes _ _ _ _ E) as LN. destruct v as [| |l|]; try discriminate. destruct G as (k & G & RK); [lia|]. rewrite G. cbn [obind].
    apply reads_list in RK as (_ & _ & _ & RI). cbn [nodes] in LN. pose proof (length_nodes l).
    assert (OL : Forall bval_ok l).
    { apply lookup_split in E as (d1 & d2 & -> & _ & _). change (kv_ok (d1 ++ (lit "values", BList l) :: d2)) in O. apply ok_app in O as [_ O]. cbn [map fold_right fst snd bval_ok] in O. apply fold_and. tauto. }
    destruct (itemsFrom_ok m objs l fuel _ RI) as (js & E1 & E2); [lia|]. rewrite E1. cbn [obind].
    assert (A : exists vs, omap (readValue m objs junk) js = Val vs /\ map addr_view (concat vs) = map peer_of (texts l)).
    { clear - E2 OL P. induction E2 as [|v j l js H F IH]; [exists []; split; reflexivity|]. inversion OL as [|? ? O1 O2]; subst. inversion P as [|? ? P1 P2]; subst. destruct (IH P2 O2) as (vs & V1 & V2).
      destruct (readValue_ok v j H P1 O1) as (x & X1 & X2). cbn [omap]. rewrite X1. cbn [obind]. rewrite V1. cbn [obind]. eexists. split; [reflexivity|]. cbn [concat]. rewrite map_app, X2, V2.
      unfold texts. cbn [map concat]. rewrite map_app. destruct v; reflexivity. }
    destruct A as (vs & A1 & A2). rewrite A1. cbn [obind]. eexists. split; [reflexivity|exact A2].
  - rewrite G by lia. eexists. split; reflexivity.
Qed.

Lemma readId_ok old e i : reads m objs (BDict e) i -> (List.length e <= fuel)%nat ->
  readId fuel m objs old i = Val (if Nat.eqb (List.length (textOf (lit "id") e)) 20 then Some (textOf (lit "id") e) else old).
Proof.
  intros R L. unfold readId. pose proof (txtItem_ok e i (lit "id") R L) as G. unfold textOf. destruct (lookup (lit "id") KStr e) as [v|]; [|now rewrite G].
  destruct v; try (now rewrite G). destruct G as (o & -> & IT). cbn [obind]. pose proof (item_size _ _ IT) as (S & _). rewrite S. unfold zlen.
  destruct (Nat.eqb_spec (List.length s) 20) as [E|E].
  - rewrite E. cbn [Z.of_nat]. rewrite Z.eqb_refl. rewrite (memAt_item0 o s 20 IT) by lia. cbn [obind]. do 2 f_equal. rewrite <- E. apply firstn_all.
  - destruct (Z.eqb_spec (Z.of_nat (List.length s)) 20); [lia|reflexivity].
Qed.

Lemma readType_ok d : reads m objs (BDict d) 0 -> (List.length d <= fuel)%nat -> lookup (lit "y") KStr d <> Some (BStr []) ->
  readType fuel m objs = Val (match lookup (lit "y") KStr d with Some (BStr s) => nth 0 s 0 =? 114 | _ => true end).
Proof.
  intros R L N. unfold readType. pose proof (txtItem_ok d 0 (lit "y") R L) as G. destruct (lookup (lit "y") KStr d) as [v|]; [|now rewrite G].
  destruct v as [|[|x s]| |]; try (now rewrite G); [congruence|]. destruct G as (o & -> & IT). cbn [obind]. rewrite (memAt_item0 o _ 1 IT) by (cbn; lia). reflexivity.
Qed.

Lemma readTrans_ok d : reads m objs (BDict d) 0 -> (List.length d <= fuel)%nat -> List.length (textOf (lit "t") d) <> 1%nat ->
  readTrans fuel m objs = Val (unle (firstn 2 (textOf (lit "t") d))).
Proof.
  intros R L N. unfold readTrans. pose proof (txtItem_ok d 0 (lit "t") R L) as G. unfold textOf in *. destruct (lookup (lit "t") KStr d) as [v|]; [|now rewrite G].
  destruct v as [|s| |]; try (now rewrite G). destruct G as (o & -> & IT). cbn [obind]. pose proof (item_size _ _ IT) as (S & _). rewrite S.
  destruct s as [|x [|y s]]; [reflexivity|cbn in N; lia|]. destruct (Z.eqb_spec (zlen (x :: y :: s)) 0) as [E|E]; [unfold zlen in E; cbn in E; lia|]. rewrite (memAt_item0 o _ 2 IT) by (cbn; lia). reflexivity.
Qed.

Lemma readError_ok d : reads m objs (BDict d) 0 -> (List.length d <= fuel)%nat -> error_ok d -> readError fuel m objs = Val (error_of d).
Proof.
  intros R L EO. unfold readError, error_ok, error_of, listOf in *. pose proof (getObject_ok m objs d 0 (lit "e") KList fuel R L) as G. change TList with (otype_of KList).
  destruct (lookup (lit "e") KList d) as [v|] eqn:E; [|now rewrite G]. pose proof (lookup_kind _ _ _ _ E) as K. destruct v as [| |l|]; try discriminate. destruct G as (k & -> & RK). cbn [obind].
  apply reads_list in RK as (_ & _ & _ & RI). destruct l as [|v l].
  - cbn [ritems] in RI. destruct (getFirstItem objs k); [contradiction|reflexivity].
  - destruct v as [n| | |]; try contradiction. destruct (getFirstItem objs k) as [j|]; [|contradiction]. cbn [ritems] in RI. destruct RI as ((_ & T & _ & RI) & _). rewrite T. apply RI. exact EO.
Qed.

End P.
