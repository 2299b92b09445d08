(** C28: what is read from any state file which is a bencoded dictionary, not only from one this
    program wrote. *)
From Verif Require Import Base BaseLemmas Dec DecLemmas BencodeModel BencodeSpec BencodeProofs StateModel StateProps XmlModel TfModel TfSpec TfProofs TfReads.
From Coq Require Import String.
From Coq Require Import List.
Import ListNotations.
Local Close Scope string_scope.

Definition low32 (n : Z) : Z := n mod 4294967296.

(** An unfinished piece of a file: kept only if it has blocks and received some bytes. *)
Definition unfinished_of (v : bval) : list upiece :=
  match v with
  | BDict e =>
    let n := low32 (numberOf (txt "downloaded") e) in
    if (n =? 0) || (match textOf (txt "blocks") e with [] => true | _ => false end) then []
    else [{| upBlocks := textOf (txt "blocks") e; upRemaining := low32 (numberOf (txt "remaining") e); upSize := n; upIndex := low32 (numberOf (txt "index") e) |}]
  | _ => []
  end.

(** A selected file: anything but a list is an unselected file of priority 50. *)
Definition selection_of (v : bval) : bool * Z :=
  match v with BList (BInt s :: BInt p :: _) => (negb (low32 s =? 0), p mod 256) | _ => (false, 50) end.

(** The state a dictionary [d] describes; what it does not name of the torrent's info, pieces,
    unfinished pieces and selection stays as it was. *)
Definition state_of (old : tstate) (d : list (list Z * bval)) : tstate :=
  let info := dictOf (txt "info") d in
  {| tsName := match info with Some e => textOf (txt "name") e | None => tsName old end;
     tsPieceSize := match info with Some e => low32 (numberOf (txt "pieceSize") e) | None => tsPieceSize old end;
     tsFullSize := match info with Some e => low32 (numberOf (txt "fullSize") e) | None => tsFullSize old end;
     tsPath := textOf (txt "downloadPath") d;
     tsPieces := match lookup (txt "pieces") KStr d with Some v => text v | None => tsPieces old end;
     tsLast := numberOf (txt "lastStateTime") d;
     tsAdded := numberOf (txt "addedTime") d;
     tsStarted := negb (low32 (numberOf (txt "started") d) =? 0);
     tsUploaded := numberOf (txt "uploaded") d;
     tsDownloaded := numberOf (txt "downloaded") d;
     tsVersion := low32 (numberOf (txt "version") d);
     tsUnfinished := match listOf (txt "unfinished") d with Some l => concat (map unfinished_of l) | None => tsUnfinished old end;
     tsSelection := match listOf (txt "selection") d with Some l => map selection_of l | None => tsSelection old end |}.

(** Numbers read as [int] are within [long], and lists of the selection have their two numbers. *)
Definition small (k : string) (d : list (list Z * bval)) : Prop := numberOf (txt k) d < 9223372036854775808.
Definition readable_state (d : list (list Z * bval)) : Prop :=
  small "started" d /\ small "version" d /\
  (forall e, dictOf (txt "info") d = Some e -> small "pieceSize" e) /\
  (forall l e, listOf (txt "unfinished") d = Some l -> In (BDict e) l -> small "index" e /\ small "remaining" e /\ small "downloaded" e) /\
  (forall l v, listOf (txt "selection") d = Some l -> In v l ->
    match v with BList (BInt s :: BInt p :: _) => s < 9223372036854775808 /\ p < 9223372036854775808 | BList _ => False | _ => True end).

Lemma u32_i32_low n : u32 (i32 n) = low32 n.
Proof. unfold u32, i32, low32. lia. Qed.
Lemma i32_zero n : (i32 n =? 0) = (low32 n =? 0).
Proof. unfold i32, low32. apply Bool.eq_iff_eq_true. rewrite !Z.eqb_eq. lia. Qed.
Lemma u8_i32 n : u8 (i32 n) = n mod 256.
Proof. unfold u8, i32. lia. Qed.

Section R.
Variables (fuel : nat) (m : list Z) (objs : list obj).

Lemma text_ok d i k : reads m objs (BDict d) i -> (length d <= fuel)%nat ->
  match lookup k KStr d with
  | Some v => exists j, getObject fuel m objs i k TText = Val (Some j) /\ itemText m (nth j objs noObj) = Val (text v)
  | None => getObject fuel m objs i k TText = Val None
  end.
Proof.
  intros R L. pose proof (getObject_ok m objs d i k KStr fuel R L) as G. change TText with (otype_of KStr). destruct (lookup k KStr d) as [v|] eqn:E; [|exact G].
  destruct G as (j & G & RJ). pose proof (lookup_kind _ _ _ _ E) as K. destruct v; try discriminate. exists j. split; [exact G|]. apply RJ.
Qed.

Lemma unfinished_ok v j : reads m objs v j -> (nodes v <= fuel)%nat ->
  (forall e, v = BDict e -> small "index" e /\ small "remaining" e /\ small "downloaded" e) ->
  loadUnfinished fuel m objs j = Val (match unfinished_of v with [] => None | p :: _ => Some p end).
Proof.
  intros R L S. unfold loadUnfinished. destruct v as [n|s|l|e]; try (destruct R as (_ & T & _); rewrite T; reflexivity).
  destruct (S e eq_refl) as (S1 & S2 & S3). rewrite nodes_dict in L. pose proof (dnodes_length e) as DL.
  assert (T : otyp (nth j objs noObj) = TDict) by apply R. rewrite T. cbn [typeEqb].
  pose proof (text_ok e j (txt "blocks") R ltac:(lia)) as G. unfold unfinished_of, textOf. change [98; 108; 111; 99; 107; 115] with (txt "blocks").
  destruct (lookup (txt "blocks") KStr e) as [v|] eqn:E.
  - destruct G as (k & G & GT). rewrite G. cbn [obind].
    change [105; 110; 100; 101; 120] with (txt "index"). change [114; 101; 109; 97; 105; 110; 105; 110; 103] with (txt "remaining").
    change [100; 111; 119; 110; 108; 111; 97; 100; 101; 100] with (txt "downloaded").
    rewrite !(int_ok fuel m objs e j _ R) by (try assumption; lia). cbn [obind]. rewrite GT. cbn [obind]. rewrite !u32_i32_low.
    pose proof (lookup_kind _ _ _ _ E) as K. destruct v as [|s| |]; try discriminate. cbn [text]. destruct s; [rewrite Bool.orb_true_r; reflexivity|].
    rewrite Bool.orb_false_r. destruct (low32 (numberOf (txt "downloaded") e) =? 0); reflexivity.
  - rewrite G. cbn [obind]. rewrite Bool.orb_true_r. reflexivity.
Qed.

Lemma selection_ok v j : reads m objs v j ->
  match v with BList (BInt s :: BInt p :: _) => s < 9223372036854775808 /\ p < 9223372036854775808 | BList _ => False | _ => True end ->
  loadSelection m objs j = Val (selection_of v).
Proof.
  intros R S. unfold loadSelection. destruct v as [n|s|l|e]; try (destruct R as (_ & T & _); rewrite T; reflexivity).
  apply reads_list in R as (_ & T & _ & RI). rewrite T. cbn [typeEqb]. destruct l as [|[a| | |] [|[b| | |] l]]; try contradiction. destruct S as [SA SB].
  destruct (getFirstItem objs j) as [x|]; [|contradiction]. destruct RI as (RX & RI). destruct (getNextSibling objs x) as [y|]; [|contradiction]. destruct RI as (RY & _).
  destruct RX as (_ & _ & _ & RX). rewrite RX by assumption. cbn [obind]. destruct RY as (_ & _ & _ & RY). rewrite RY by assumption. cbn [obind selection_of].
  now rewrite i32_zero, u8_i32.
Qed.

End R.

(** C28: every state file which is a bencoded dictionary (below the parser's sizes) loads, and
    each value is the one the file names, in the width of its member. *)
Theorem C28_any_file : forall d old fuel, bval_ok (BDict d) -> readable_state d ->
  Z.of_nat (nodes (BDict d)) < 65536 -> zlen (bencode (BDict d)) < 2147483648 -> (2 * nodes (BDict d) <= fuel)%nat ->
  loadState fuel old (bencode (BDict d) ++ [0]) (zlen (bencode (BDict d))) = Val (true, state_of old d).
Proof.
  intros d old fuel BO (S1 & S2 & S3 & S4 & S5) N L F.
  destruct (parse_bencode (BDict d) 0 [] fuel (zlen (bencode (BDict d)))) as (r & E & R & P & _); try assumption; try lia.
  set (m := bencode (BDict d) ++ [0]) in *. unfold loadState. rewrite E. cbn [obind]. rewrite P. cbn [negb]. cbn zeta.
  set (objs := pobjs r) in *. rewrite nodes_dict in F. pose proof (dnodes_length d) as DL. assert (LD : (length d <= fuel)%nat) by lia.
  change [105; 110; 102; 111] with (txt "info"). change [110; 97; 109; 101] with (txt "name"). change [112; 105; 101; 99; 101; 83; 105; 122; 101] with (txt "pieceSize").
  change [102; 117; 108; 108; 83; 105; 122; 101] with (txt "fullSize"). change [100; 111; 119; 110; 108; 111; 97; 100; 80; 97; 116; 104] with (txt "downloadPath").
  change [108; 97; 115; 116; 83; 116; 97; 116; 101; 84; 105; 109; 101] with (txt "lastStateTime"). change [97; 100; 100; 101; 100; 84; 105; 109; 101] with (txt "addedTime").
  change [115; 116; 97; 114; 116; 101; 100] with (txt "started"). change [117; 112; 108; 111; 97; 100; 101; 100] with (txt "uploaded").
  change [100; 111; 119; 110; 108; 111; 97; 100; 101; 100] with (txt "downloaded"). change [118; 101; 114; 115; 105; 111; 110] with (txt "version").
  change [112; 105; 101; 99; 101; 115] with (txt "pieces"). change [117; 110; 102; 105; 110; 105; 115; 104; 101; 100] with (txt "unfinished").
  change [115; 101; 108; 101; 99; 116; 105; 111; 110] with (txt "selection").
  (* info *)
  assert (I : exists o, getObject fuel m objs 0 (txt "info") TDict = Val o /\
    match o with
    | Some i => obind (txtOf fuel m objs i (txt "name")) (fun n => obind (intOf fuel m objs i (txt "pieceSize")) (fun ps => obind (bigOf fuel m objs i (txt "fullSize")) (fun fs => Val (n, u32 ps, u32 fs))))
    | None => Val (tsName old, tsPieceSize old, tsFullSize old)
    end = Val (tsName (state_of old d), tsPieceSize (state_of old d), tsFullSize (state_of old d))).
  { pose proof (getObject_ok m objs d 0 (txt "info") KDict fuel R LD) as G. change TDict with (otype_of KDict). cbn [state_of tsName tsPieceSize tsFullSize]. unfold dictOf in *.
    destruct (lookup (txt "info") KDict d) as [v|] eqn:EI.
    - destruct G as (i & G & RI). pose proof (lookup_kind _ _ _ _ EI) as K. destruct v as [| | |e]; try discriminate. exists (Some i). split; [exact G|].
      apply lookup_nodes in EI. rewrite nodes_dict in EI. pose proof (dnodes_length e).
      rewrite (txt_ok fuel m objs e i _ RI) by lia. cbn [obind]. rewrite (int_ok fuel m objs e i _ RI) by (try apply S3; try reflexivity; lia). cbn [obind].
      rewrite (big_ok fuel m objs e i _ RI) by lia. cbn [obind]. rewrite u32_i32_low. reflexivity.
    - exists None. split; [exact G|reflexivity]. }
  destruct I as (o & I1 & I2). rewrite I1. cbn [obind]. rewrite I2. cbn [obind fst snd]. clear o I1 I2.
  rewrite (txt_ok fuel m objs d 0 _ R LD). cbn [obind]. rewrite !(big_ok fuel m objs d 0 _ R LD). cbn [obind].
  rewrite (int_ok fuel m objs d 0 (txt "started") R LD S1). cbn [obind]. rewrite (int_ok fuel m objs d 0 (txt "version") R LD S2). cbn [obind].
  (* pieces *)
  assert (I : exists o, getObject fuel m objs 0 (txt "pieces") TText = Val o /\
    match o with Some j => itemText m (nth j objs noObj) | None => Val (tsPieces old) end = Val (tsPieces (state_of old d))).
  { pose proof (text_ok fuel m objs d 0 (txt "pieces") R LD) as G. cbn [state_of tsPieces]. destruct (lookup (txt "pieces") KStr d) as [v|].
    - destruct G as (j & G & GT). exists (Some j). auto.
    - exists None. auto. }
  destruct I as (o & I1 & I2). rewrite I1. cbn [obind]. rewrite I2. cbn [obind]. clear o I1 I2.
  (* unfinished *)
  assert (I : exists o, getObject fuel m objs 0 (txt "unfinished") TList = Val o /\
    match o with
    | Some j => obind (itemsFrom objs fuel false (getFirstItem objs j)) (fun l => obind (omap (loadUnfinished fuel m objs) l) (fun us => Val (keep us)))
    | None => Val (tsUnfinished old)
    end = Val (tsUnfinished (state_of old d))).
  { pose proof (getObject_ok m objs d 0 (txt "unfinished") KList fuel R LD) as G. change TList with (otype_of KList). cbn [state_of tsUnfinished]. unfold listOf in *.
    destruct (lookup (txt "unfinished") KList d) as [v|] eqn:EI.
    - destruct G as (i & G & RI). pose proof (lookup_kind _ _ _ _ EI) as K. destruct v as [| |l|]; try discriminate. exists (Some i). split; [exact G|].
      apply lookup_nodes in EI. cbn [nodes] in EI. pose proof (length_nodes l). apply reads_list in RI as (_ & _ & _ & RI).
      destruct (itemsFrom_ok m objs l fuel _ RI) as (js & E1 & E2); [lia|]. rewrite E1. cbn [obind].
      rewrite (omap_ok (fun j v => reads m objs v j) _ (fun v => match unfinished_of v with [] => None | p :: _ => Some p end) l js E2).
      + cbn [obind]. f_equal. unfold keep. rewrite map_map. f_equal. apply map_ext. intros v. unfold unfinished_of. destruct v; try reflexivity. cbn zeta. destruct (_ || _); reflexivity.
      + intros j v IN RV. pose proof (list_nodes l _ IN). apply unfinished_ok; [exact RV|lia|]. intros e ->. exact (S4 l e eq_refl IN).
    - exists None. split; [exact G|reflexivity]. }
  destruct I as (o & I1 & I2). rewrite I1. cbn [obind]. rewrite I2. cbn [obind]. clear o I1 I2.
  (* selection *)
  assert (I : exists o, getObject fuel m objs 0 (txt "selection") TList = Val o /\
    match o with
    | Some j => obind (itemsFrom objs fuel false (getFirstItem objs j)) (fun l => omap (loadSelection m objs) l)
    | None => Val (tsSelection old)
    end = Val (tsSelection (state_of old d))).
  { pose proof (getObject_ok m objs d 0 (txt "selection") KList fuel R LD) as G. change TList with (otype_of KList). cbn [state_of tsSelection]. unfold listOf in *.
    destruct (lookup (txt "selection") KList d) as [v|] eqn:EI.
    - destruct G as (i & G & RI). pose proof (lookup_kind _ _ _ _ EI) as K. destruct v as [| |l|]; try discriminate. exists (Some i). split; [exact G|].
      apply lookup_nodes in EI. cbn [nodes] in EI. pose proof (length_nodes l). apply reads_list in RI as (_ & _ & _ & RI).
      destruct (itemsFrom_ok m objs l fuel _ RI) as (js & E1 & E2); [lia|]. rewrite E1. cbn [obind].
      apply (omap_ok (fun j v => reads m objs v j)); [exact E2|]. intros j v IN RV. apply selection_ok; [exact RV|]. exact (S5 l v eq_refl IN).
    - exists None. split; [exact G|reflexivity]. }
  destruct I as (o & I1 & I2). rewrite I1. cbn [obind]. rewrite I2. cbn [obind]. clear o I1 I2.
  rewrite u32_i32_low, i32_zero. reflexivity.
Qed.
Print Assumptions C28_any_file.

(** C28: what a file does not name stays as it was: loading the empty dictionary keeps the info,
    the pieces, the unfinished pieces and the selection, and clears the rest. *)
Theorem C28_missing_kept : forall old fuel, (2 <= fuel)%nat -> exists t, loadState fuel old [100; 101; 0] 2 = Val (true, t) /\
  tsName t = tsName old /\ tsPieceSize t = tsPieceSize old /\ tsFullSize t = tsFullSize old /\ tsPieces t = tsPieces old /\
  tsUnfinished t = tsUnfinished old /\ tsSelection t = tsSelection old /\ tsPath t = [] /\ tsStarted t = false.
Proof.
  intros old fuel F. exists (state_of old []). split; [|repeat split].
  change [100; 101; 0] with (bencode (BDict []) ++ [0]). change 2 with (zlen (bencode (BDict []))). apply C28_any_file.
  - exact I.
  - unfold readable_state, small. change (numberOf (txt "started") []) with 0. change (numberOf (txt "version") []) with 0.
    repeat split; try lia; intros; discriminate.
  - reflexivity.
  - reflexivity.
  - exact F.
Qed.
Print Assumptions C28_missing_kept.

(** A file with a priority above a byte, a piece without bytes and no info. *)
Example C28_any_file_example : let d := [(txt "selection", BList [BList [BInt 7; BInt 306]; BInt 3]); (txt "unfinished", BList [BDict [(txt "blocks", BStr [1])]])] in
  readable_state d /\ tsSelection (state_of {| tsName := [1]; tsPieceSize := 2; tsFullSize := 3; tsPath := []; tsPieces := [9]; tsLast := 0; tsAdded := 0; tsStarted := true; tsUploaded := 0;
     tsDownloaded := 0; tsVersion := 1; tsUnfinished := []; tsSelection := [] |} d) = [(true, 50); (false, 50)].
Proof.
  cbv zeta. split; [|reflexivity]. unfold readable_state, small. refine (conj _ (conj _ (conj _ (conj _ _)))); try reflexivity.
  - intros e H. vm_compute in H. discriminate.
  - intros l e H. vm_compute in H. injection H as <-. intros [X|[]]. injection X as <-. repeat split; reflexivity.
  - intros l v H. vm_compute in H. injection H as <-. intros [X|[X|[]]]; subst; cbn; [lia|exact I].
Qed.
