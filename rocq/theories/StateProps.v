(** C28: the saved state of a torrent, and the saved list of torrents (C72). *)
From Verif Require Import Base BaseLemmas Dec DecLemmas BencodeModel BencodeSpec BencodeProofs StateModel.

(** ** What is saved *)

Definition unfinished_value (p : upiece) : bval :=
  BDict [([98;108;111;99;107;115], BStr (upBlocks p)); ([114;101;109;97;105;110;105;110;103], BInt (upRemaining p));
         ([105;110;100;101;120], BInt (upIndex p)); ([100;111;119;110;108;111;97;100;101;100], BInt (upSize p))].
Definition selection_value (s : bool * Z) : bval := BList [BInt (if fst s then 1 else 0); BInt (snd s)].
Definition state_dict (t : tstate) : list (list Z * bval) :=
  [([105;110;102;111], BDict [([110;97;109;101], BStr (tsName t)); ([112;105;101;99;101;83;105;122;101], BInt (tsPieceSize t)); ([102;117;108;108;83;105;122;101], BInt (tsFullSize t))]);
   ([100;111;119;110;108;111;97;100;80;97;116;104], BStr (tsPath t));
   ([112;105;101;99;101;115], BStr (tsPieces t));
   ([108;97;115;116;83;116;97;116;101;84;105;109;101], BInt (tsLast t));
   ([97;100;100;101;100;84;105;109;101], BInt (tsAdded t));
   ([115;116;97;114;116;101;100], BInt (if tsStarted t then 1 else 0));
   ([117;112;108;111;97;100;101;100], BInt (tsUploaded t));
   ([100;111;119;110;108;111;97;100;101;100], BInt (tsDownloaded t));
   ([118;101;114;115;105;111;110], BInt (tsVersion t));
   ([117;110;102;105;110;105;115;104;101;100], BList (map unfinished_value (tsUnfinished t)));
   ([115;101;108;101;99;116;105;111;110], BList (map selection_value (tsSelection t)))].

Lemma fold_app {A} (f : list Z -> A -> list Z) (g : A -> list Z) : (forall d x, f d x = d ++ g x) ->
  forall l d, fold_left f l d = d ++ concat (map g l).
Proof. intros H. induction l as [|x l IH]; intros d; cbn [fold_left map concat]; [now rewrite app_nil_r|]. rewrite IH, H, app_assoc. reflexivity. Qed.

Lemma saveUnfinished_app d p : saveUnfinished d p = d ++ bencode (unfinished_value p).
Proof.
  unfold saveUnfinished, unfinished_value, rawText, rawNumber, addText, addNumber, addRawData, startMap, endMap. cbn [bencode map concat fst snd].
  change (toString (zlen [98;108;111;99;107;115])) with [54]. change (toString (zlen [114;101;109;97;105;110;105;110;103])) with [57].
  change (toString (zlen [105;110;100;101;120])) with [53]. change (toString (zlen [100;111;119;110;108;111;97;100;101;100])) with [49;48].
  rewrite <- !app_assoc. reflexivity.
Qed.

Lemma saveSelection_app d s : saveSelection d s = d ++ bencode (selection_value s).
Proof. unfold saveSelection, selection_value, addNumber, startArray, endArray, b2z. cbn [bencode map concat]. rewrite <- !app_assoc. reflexivity. Qed.

(** C28, what is written: the state as one bencoded dictionary. *)
Theorem C28_saved : forall t, saveState t = bencode (BDict (state_dict t)).
Proof.
  intros t. unfold saveState. rewrite (fold_app _ _ saveUnfinished_app), (fold_app _ _ saveSelection_app).
  unfold rawText, rawNumber, addText, addNumber, addRawData, startMap, endMap, startArray, endArray, b2z.
  unfold state_dict. rewrite bencode_dict. cbn [map concat]. unfold benentry. cbn [fst snd]. rewrite !bencode_list, !map_map. cbn [bencode map concat fst snd].
  repeat match goal with |- context [toString (zlen (?a :: ?l))] => let x := eval vm_compute in (toString (zlen (a :: l))) in change (toString (zlen (a :: l))) with x end.
  rewrite <- !app_assoc. unfold rName, rPieceSize, rFullSize, rPath, rPieces, rLast, rAdded, rStarted, rUploaded, rDownloaded, rVersion, rUnfinished, rSelection.
  cbn [app]. rewrite <- ?app_assoc. cbn [app]. reflexivity.
Qed.
Print Assumptions C28_saved.

(** ** Reading back *)

Section R.
Variables (fuel : nat) (m : list Z) (objs : list obj).

Lemma txtOf_ok d i name s : reads m objs (BDict d) i -> (length d <= fuel)%nat -> lookup name KStr d = Some (BStr s) -> txtOf fuel m objs i name = Val s.
Proof.
  intros R L E. pose proof (getObject_ok m objs d i name KStr fuel R L) as G. rewrite E in G. destruct G as (j & G & RJ). unfold txtOf.
  change TText with (otype_of KStr). rewrite G. cbn [obind]. apply RJ.
Qed.

Lemma intOf_ok d i name n : reads m objs (BDict d) i -> (length d <= fuel)%nat -> lookup name KInt d = Some (BInt n) -> n < 9223372036854775808 -> intOf fuel m objs i name = Val (i32 n).
Proof.
  intros R L E H. pose proof (getObject_ok m objs d i name KInt fuel R L) as G. rewrite E in G. destruct G as (j & G & RJ). unfold intOf.
  change TNumber with (otype_of KInt). rewrite G. cbn [obind]. destruct RJ as (_ & _ & _ & RJ). auto.
Qed.

Lemma bigOf_ok d i name n : reads m objs (BDict d) i -> (length d <= fuel)%nat -> lookup name KInt d = Some (BInt n) -> bigOf fuel m objs i name = Val n.
Proof.
  intros R L E. pose proof (getObject_ok m objs d i name KInt fuel R L) as G. rewrite E in G. destruct G as (j & G & RJ). unfold bigOf.
  change TNumber with (otype_of KInt). rewrite G. cbn [obind]. apply RJ.
Qed.

Lemma itemsFrom_ok l : forall f a, ritems m objs l a -> (length l <= f)%nat -> exists js, itemsFrom objs f false a = Val js /\ Forall2 (reads m objs) l js.
Proof.
  induction l as [|v l IH]; intros f a R L.
  - destruct a; [contradiction|]. exists []. split; [destruct f; reflexivity|constructor].
  - destruct a as [j|]; [|contradiction]. cbn [ritems] in R. destruct R as [R1 R2]. destruct f as [|f]; [cbn in L; lia|]. cbn [itemsFrom].
    destruct (IH f _ R2) as (js & E & F); [cbn [length] in L; lia|]. rewrite E. cbn [obind]. exists (j :: js). split; [reflexivity|]. now constructor.
Qed.

Lemma omap_ok {A B C} (P : A -> C -> Prop) (f : A -> out B) (g : C -> B) l js : Forall2 (fun c a => P a c) l js -> (forall a c, In c l -> P a c -> f a = Val (g c)) ->
  omap f js = Val (map g l).
Proof.
  induction 1 as [|c a l js H F IH]; intros G; [reflexivity|]. cbn [omap map]. rewrite (G a c); [|now left|exact H]. cbn [obind].
  rewrite IH; [reflexivity|]. intros a' c' I. apply G. now right.
Qed.

End R.

Lemma u32_i32 n : 0 <= n < 4294967296 -> u32 (i32 n) = n.
Proof. intros H. unfold u32, i32. lia. Qed.

(** Ranges of the types, for whatever a running torrent can hold. *)
Definition piece_ok (p : upiece) : Prop :=
  bytes_ok (upBlocks p) /\ 0 <= upRemaining p < 4294967296 /\ 0 <= upSize p < 4294967296 /\ 0 <= upIndex p < 4294967296.
Definition u64_ok (n : Z) : Prop := 0 <= n < 18446744073709551616.
Definition tstate_ok (t : tstate) : Prop :=
  bytes_ok (tsName t) /\ 0 <= tsPieceSize t < 4294967296 /\ u64_ok (tsFullSize t) /\ bytes_ok (tsPath t) /\ bytes_ok (tsPieces t) /\
  u64_ok (tsLast t) /\ u64_ok (tsAdded t) /\ u64_ok (tsUploaded t) /\ u64_ok (tsDownloaded t) /\ 0 <= tsVersion t < 4294967296 /\
  Forall piece_ok (tsUnfinished t) /\ Forall (fun s => 0 <= snd s < 256) (tsSelection t).

(** An unfinished piece which has some bytes. *)
Definition begun (p : upiece) : bool := match upBlocks p with [] => false | _ => negb (upSize p =? 0) end.

Lemma fold_and {A} (P : A -> Prop) l : fold_right and True (map P l) <-> Forall P l.
Proof. induction l as [|x l IH]; cbn; [split; [constructor|auto]|]. rewrite IH. split; [intros []; now constructor|intros H; inversion H; auto]. Qed.

Lemma state_dict_ok t : tstate_ok t -> bval_ok (BDict (state_dict t)).
Proof.
  intros (H1 & H2 & H3 & H4 & H5 & H6 & H7 & H8 & H9 & H10 & H11 & H12). unfold u64_ok in *. cbn [bval_ok]. apply fold_and. unfold state_dict.
  assert (U : bval_ok (BList (map unfinished_value (tsUnfinished t)))).
  { cbn [bval_ok]. apply fold_and, Forall_map. revert H11. apply Forall_impl. intros p (B & R & S & I). cbn [unfinished_value bval_ok map fold_right fst snd].
    repeat split; try lia; try exact B; repeat constructor; unfold is_byte; lia. }
  assert (S : bval_ok (BList (map selection_value (tsSelection t)))).
  { cbn [bval_ok]. apply fold_and, Forall_map. revert H12. apply Forall_impl. intros [b p] H. cbn [selection_value bval_ok map fold_right fst snd] in *. destruct b; lia. }
  cbn [map]. repeat (apply Forall_cons; [cbn [fst snd]; split; [unfold bytes_ok; repeat (apply Forall_cons; [unfold is_byte; lia|]); apply Forall_nil|]|]); try apply Forall_nil; try assumption.
  all: cbn [bval_ok map fold_right fst snd]; try destruct (tsStarted t); repeat split; try lia; try assumption; unfold bytes_ok; repeat (apply Forall_cons; [unfold is_byte; lia|]); apply Forall_nil.
Qed.

Definition kept (t : tstate) : tstate :=
  {| tsName := tsName t; tsPieceSize := tsPieceSize t; tsFullSize := tsFullSize t mod 4294967296; tsPath := tsPath t; tsPieces := tsPieces t;
     tsLast := tsLast t; tsAdded := tsAdded t; tsStarted := tsStarted t; tsUploaded := tsUploaded t; tsDownloaded := tsDownloaded t;
     tsVersion := tsVersion t; tsUnfinished := filter begun (tsUnfinished t); tsSelection := tsSelection t |}.

Lemma list_nodes l v : In v l -> (BencodeSpec.nodes v <= list_sum (map BencodeSpec.nodes l))%nat.
Proof. unfold list_sum. induction l as [|x l IH]; intros []; cbn [map fold_right]; [subst; lia|]. specialize (IH H). lia. Qed.

Lemma length_nodes l : (length l <= list_sum (map BencodeSpec.nodes l))%nat.
Proof. unfold list_sum. induction l as [|x l IH]; cbn [map fold_right length]; [lia|]. pose proof (nodes_pos x). lia. Qed.

(** What is read back of any state: everything but the high half of the full size and the
    unfinished pieces without bytes. *)
Lemma load_saved t old fuel : tstate_ok t -> Z.of_nat (BencodeSpec.nodes (BDict (state_dict t))) < 65536 -> zlen (saveState t) < 2147483648 ->
  (2 * BencodeSpec.nodes (BDict (state_dict t)) <= fuel)%nat ->
  loadState fuel old (saveState t ++ [0]) (zlen (saveState t)) = Val (true, kept t).
Proof.
  intros OK N L F. pose proof (state_dict_ok t OK) as BO. rewrite C28_saved in *.
  destruct (parse_bencode (BDict (state_dict t)) 0 [] fuel (zlen (bencode (BDict (state_dict t))))) as (r & E & R & P & _); try assumption; try lia.
  set (m := bencode (BDict (state_dict t)) ++ [0]) in *. unfold loadState. rewrite E. cbn [obind]. rewrite P. cbn [negb]. cbn zeta.
  set (objs := pobjs r) in *. destruct OK as (H1 & H2 & H3 & H4 & H5 & H6 & H7 & H8 & H9 & H10 & H11 & H12). unfold u64_ok in *.
  assert (LD : (length (state_dict t) <= fuel)%nat) by (cbn [state_dict length]; cbn [BencodeSpec.nodes state_dict map snd list_sum fold_right] in F; lia).
  assert (NF : (list_sum (map BencodeSpec.nodes (map unfinished_value (tsUnfinished t))) + list_sum (map BencodeSpec.nodes (map selection_value (tsSelection t))) + 16 <= fuel)%nat).
  { unfold state_dict in F. cbn [BencodeSpec.nodes map snd] in F. unfold list_sum in *. cbn [fold_right BencodeSpec.nodes map snd] in F. lia. }
  (* info *)
  pose proof (getObject_ok m objs (state_dict t) 0 [105;110;102;111] KDict fuel R LD) as GI. cbn [lookup state_dict list_eqb kind_of kind_eqb andb Z.eqb Pos.eqb] in GI.
  destruct GI as (i & GI & RI). change TDict with (otype_of KDict) at 1. rewrite GI. cbn [obind].
  erewrite txtOf_ok; [|exact RI|cbn [length]; lia|reflexivity]. cbn [obind].
  erewrite intOf_ok; [|exact RI|cbn [length]; lia|reflexivity|lia]. cbn [obind].
  erewrite bigOf_ok; [|exact RI|cbn [length]; lia|reflexivity]. cbn [obind fst snd].
  (* flat entries *)
  erewrite txtOf_ok; [|exact R|exact LD|reflexivity]. cbn [obind].
  do 2 (erewrite bigOf_ok; [|exact R|exact LD|reflexivity]; cbn [obind]).
  erewrite intOf_ok; [|exact R|exact LD|reflexivity|destruct (tsStarted t); lia]. cbn [obind].
  do 2 (erewrite bigOf_ok; [|exact R|exact LD|reflexivity]; cbn [obind]).
  erewrite intOf_ok; [|exact R|exact LD|reflexivity|lia]. cbn [obind].
  (* pieces *)
  pose proof (getObject_ok m objs (state_dict t) 0 [112;105;101;99;101;115] KStr fuel R LD) as GP. cbn [lookup state_dict list_eqb kind_of kind_eqb andb Z.eqb Pos.eqb] in GP.
  destruct GP as (jp & GP & RP). change TText with (otype_of KStr) at 1. rewrite GP. cbn [obind]. destruct RP as (_ & _ & RP). rewrite RP. cbn [obind].
  (* unfinished *)
  pose proof (getObject_ok m objs (state_dict t) 0 [117;110;102;105;110;105;115;104;101;100] KList fuel R LD) as GU. cbn [lookup state_dict list_eqb kind_of kind_eqb andb Z.eqb Pos.eqb] in GU.
  destruct GU as (ju & GU & RU). change TList with (otype_of KList) at 1. rewrite GU. cbn [obind]. apply reads_list in RU as (_ & _ & _ & RU).
  destruct (itemsFrom_ok m objs _ fuel _ RU) as (us & EU & FU).
  { pose proof (length_nodes (map unfinished_value (tsUnfinished t))). lia. }
  rewrite EU. cbn [obind].
  rewrite (omap_ok (fun a c => reads m objs (unfinished_value c) a) _ (fun p => if begun p then Some p else None) (tsUnfinished t) us).
  2:{ clear - FU. revert us FU. generalize (tsUnfinished t). induction l as [|p l IH]; intros us FU; inversion FU; subst; constructor; auto. }
  2:{ intros a p IP RA. rewrite Forall_forall in H11. destruct (H11 p IP) as (PB & PR & PS & PI). unfold loadUnfinished. destruct RA as (RA1 & RA2 & RA3).
      assert (RA : reads m objs (unfinished_value p) a) by (exact (conj RA1 (conj RA2 RA3))). rewrite RA2. cbn [typeEqb].
      pose proof (getObject_ok m objs _ a [98;108;111;99;107;115] KStr fuel RA) as GB. cbn [lookup list_eqb kind_of kind_eqb andb Z.eqb Pos.eqb length] in GB.
      destruct (GB ltac:(lia)) as (jb & GB' & RB). change TText with (otype_of KStr) at 1. rewrite GB'. cbn [obind]. destruct RB as (_ & _ & RB).
      erewrite intOf_ok; [|exact RA|cbn [length]; lia|reflexivity|lia]. cbn [obind].
      erewrite intOf_ok; [|exact RA|cbn [length]; lia|reflexivity|lia]. cbn [obind].
      erewrite intOf_ok; [|exact RA|cbn [length]; lia|reflexivity|lia]. cbn [obind]. rewrite RB. cbn [obind]. rewrite !u32_i32 by lia.
      unfold begun. destruct p as [pb pr ps pi]. cbn [upBlocks upSize upRemaining upIndex]. destruct pb; [reflexivity|]. destruct (ps =? 0); reflexivity. }
  cbn [obind].
  (* selection *)
  pose proof (getObject_ok m objs (state_dict t) 0 [115;101;108;101;99;116;105;111;110] KList fuel R LD) as GS. cbn [lookup state_dict list_eqb kind_of kind_eqb andb Z.eqb Pos.eqb] in GS.
  destruct GS as (js & GS & RS). change TList with (otype_of KList) at 1. rewrite GS. cbn [obind]. apply reads_list in RS as (_ & _ & _ & RS).
  destruct (itemsFrom_ok m objs _ fuel _ RS) as (ss & ES & FS).
  { pose proof (length_nodes (map selection_value (tsSelection t))). lia. }
  rewrite ES. cbn [obind].
  rewrite (omap_ok (fun a c => reads m objs (selection_value c) a) _ (fun s => s) (tsSelection t) ss).
  2:{ clear - FS. revert ss FS. generalize (tsSelection t). induction l as [|p l IH]; intros us FU; inversion FU; subst; constructor; auto. }
  2:{ intros a [b p] IP RA. rewrite Forall_forall in H12. specialize (H12 _ IP). cbn [snd] in H12. unfold loadSelection.
      apply reads_list in RA as (_ & RA2 & _ & RA). rewrite RA2. cbn [typeEqb]. cbn [fst snd] in RA.
      destruct (getFirstItem objs a) as [x|]; [|contradiction]. destruct RA as (RX & RA). destruct (getNextSibling objs x) as [y|]; [|contradiction]. destruct RA as (RY & _).
      destruct RX as (_ & _ & _ & RX). rewrite RX by (destruct b; lia). cbn [obind]. destruct RY as (_ & _ & _ & RY). rewrite RY by lia. cbn [obind].
      f_equal. f_equal; [destruct b; reflexivity|]. unfold u8, i32. lia. }
  cbn [obind]. rewrite map_id. rewrite !u32_i32 by lia. unfold kept. do 3 f_equal.
  - destruct (tsStarted t); reflexivity.
  - unfold keep. rewrite map_map. clear. induction (tsUnfinished t) as [|p l IH]; [reflexivity|]. cbn [map concat filter]. rewrite IH. destruct (begun p); reflexivity.
Qed.

(** C28, the part which holds: the state loads back exactly as saved, if the full size is below
    4 GiB and every unfinished piece has some bytes (and the text has less than 65536 items and
    is below 2 GiB, as the parser needs). *)
Theorem C28_round_trip_partial : forall t old fuel, tstate_ok t -> tsFullSize t < 4294967296 -> Forall (fun p => upBlocks p <> [] /\ upSize p <> 0) (tsUnfinished t) ->
  Z.of_nat (BencodeSpec.nodes (BDict (state_dict t))) < 65536 -> zlen (saveState t) < 2147483648 -> (2 * BencodeSpec.nodes (BDict (state_dict t)) <= fuel)%nat ->
  loadState fuel old (saveState t ++ [0]) (zlen (saveState t)) = Val (true, t).
Proof.
  intros t old fuel OK FS U N L F. rewrite load_saved by assumption. do 2 f_equal. unfold kept. destruct t as [a b c d e f g h i j k l n]. cbn in *.
  f_equal.
  - apply Z.mod_small. destruct OK as (_ & _ & OK & _). unfold u64_ok in OK. cbn in OK. lia.
  - clear - U. induction U as [|p l (U1 & U2) _ IH]; [reflexivity|]. cbn [filter]. unfold begun at 1. destruct (upBlocks p); [congruence|].
    destruct (Z.eqb_spec (upSize p) 0); [contradiction|]. cbn [negb]. now rewrite IH.
Qed.
Print Assumptions C28_round_trip_partial.

(** Finding: the size of a torrent of 4 GiB or more is never read back as it was. *)
Theorem C28_size_refuted : forall t old fuel r, tstate_ok t -> 4294967296 <= tsFullSize t ->
  Z.of_nat (BencodeSpec.nodes (BDict (state_dict t))) < 65536 -> zlen (saveState t) < 2147483648 -> (2 * BencodeSpec.nodes (BDict (state_dict t)) <= fuel)%nat ->
  loadState fuel old (saveState t ++ [0]) (zlen (saveState t)) = Val (true, r) -> tsFullSize r = tsFullSize t mod 4294967296 /\ tsFullSize r <> tsFullSize t.
Proof.
  intros t old fuel r OK FS N L F. rewrite load_saved by assumption. intros E. injection E as <-. cbn [kept tsFullSize].
  split; [reflexivity|]. pose proof (Z.mod_pos_bound (tsFullSize t) 4294967296 ltac:(lia)). lia.
Qed.
Print Assumptions C28_size_refuted.

(** Finding: an unfinished piece saved without bytes is not read back (nothing is lost by it). *)
Theorem C28_unfinished_refuted : exists t r, tstate_ok t /\ loadState 200 t (saveState t ++ [0]) (zlen (saveState t)) = Val (true, r) /\ tsUnfinished r <> tsUnfinished t.
Proof.
  exists {| tsName := [97]; tsPieceSize := 16384; tsFullSize := 5; tsPath := []; tsPieces := [0]; tsLast := 7; tsAdded := 8; tsStarted := true; tsUploaded := 0; tsDownloaded := 0; tsVersion := 1;
    tsUnfinished := [{| upBlocks := [0]; upRemaining := 1; upSize := 0; upIndex := 0 |}]; tsSelection := [(true, 50)] |}.
  eexists. split; [|split; [vm_compute; reflexivity|discriminate]].
  repeat split; cbn; try lia; repeat constructor; unfold is_byte; cbn; try lia.
Qed.
Print Assumptions C28_unfinished_refuted.

Definition exState : tstate :=
  {| tsName := [97; 98]; tsPieceSize := 3000000000; tsFullSize := 4294967295; tsPath := [47]; tsPieces := [1; 0; 255]; tsLast := 1700000000000; tsAdded := 8; tsStarted := true;
     tsUploaded := 18446744073709551615; tsDownloaded := 9; tsVersion := 1; tsUnfinished := [{| upBlocks := [1; 0]; upRemaining := 1; upSize := 16384; upIndex := 4 |}];
     tsSelection := [(true, 50); (false, 10)] |}.
Example ex_state : loadState 200 (kept exState) (saveState exState ++ [0]) (zlen (saveState exState)) = Val (true, exState).
Proof. vm_compute. reflexivity. Qed.
Example exState_ok : tstate_ok exState.
Proof. repeat split; cbn; try lia; repeat constructor; unfold is_byte; cbn; try lia. Qed.

(** ** C72: the list of torrents *)

Definition names_value (names : list (list Z)) : bval := BList (map (fun n => BDict [([110;97;109;101], BStr n)]) names).

(** C72. The saved list of torrents is loaded back with exactly the same names in the same
    order (less than 32767 torrents, as the parser counts in 16 bits). *)
Theorem C72_list : forall names old fuel, Forall bytes_ok names -> zlen names < 21845 -> zlen (saveList names) < 2147483648 -> (6 * length names + 2 <= fuel)%nat ->
  loadList fuel old (saveList names ++ [0]) (zlen (saveList names)) = Val (true, names).
Proof.
  intros names old fuel B N L F.
  assert (S : saveList names = bencode (names_value names)).
  { unfold saveList. rewrite (fold_app saveName (fun n => bencode (BDict [([110;97;109;101], BStr n)]))).
    - unfold names_value, startArray, endArray. rewrite bencode_list, map_map. cbn [app]. reflexivity.
    - intros d n. unfold saveName, rawText, addText, addRawData, startMap, endMap. cbn [bencode map concat fst snd].
      change (toString (zlen [110;97;109;101])) with [52]. rewrite <- !app_assoc. reflexivity. }
  rewrite S in *.
  assert (BO : bval_ok (names_value names)).
  { cbn [names_value bval_ok]. apply fold_and, Forall_map. revert B. apply Forall_impl. intros n H. cbn [bval_ok map fold_right fst snd]. repeat split; try assumption. repeat constructor; unfold is_byte; lia. }
  assert (NN : BencodeSpec.nodes (names_value names) = (3 * length names + 1)%nat).
  { unfold names_value. cbn [BencodeSpec.nodes]. clear. unfold list_sum. induction names as [|n l IH]; [reflexivity|]. cbn [map fold_right length] in *. cbn [BencodeSpec.nodes map fold_right list_sum snd] in *. unfold list_sum in *. cbn [fold_right] in *. lia. }
  destruct (parse_bencode (names_value names) 0 [] fuel (zlen (bencode (names_value names)))) as (r & E & R & P & _); try assumption; try lia; try (rewrite NN; unfold zlen in N; lia).
  unfold loadList. rewrite E. cbn [obind]. rewrite P. cbn [negb]. cbn zeta. apply reads_list in R as (_ & T & _ & R). rewrite T. cbn [typeEqb].
  destruct (itemsFrom_ok _ _ _ fuel _ R) as (js & EJ & FJ); [rewrite map_length; lia|]. rewrite EJ. cbn [obind].
  rewrite (omap_ok (fun a n => reads (bencode (names_value names) ++ [0]) (pobjs r) (BDict [([110;97;109;101], BStr n)]) a) _ (fun n => n) names js).
  - rewrite map_id. reflexivity.
  - clear - FJ. revert js FJ. generalize (bencode (names_value names) ++ [0]). intros m0. induction names as [|p l IH]; intros us FU; inversion FU; subst; constructor; auto.
  - intros a n I RA. erewrite txtOf_ok; [reflexivity|exact RA|cbn [length]; lia|reflexivity].
Qed.
Print Assumptions C72_list.

Example ex_list : loadList 20 [[1]] (saveList [[97; 98]; []; [0; 255]] ++ [0]) (zlen (saveList [[97; 98]; []; [0; 255]])) = Val (true, [[97; 98]; []; [0; 255]]).
Proof. vm_compute. reflexivity. Qed.
