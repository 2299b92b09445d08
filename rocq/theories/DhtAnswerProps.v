(** C82, C83: how the requests of others are answered, and what one client makes of the answers of another. *)
From Verif Require Import Base BaseLemmas Dec DecLemmas PacketModel PacketProofs AddrModel BencodeModel BencodeSpec BencodeProofs StateModel StateProps TfSpec TfProofs TfReads NodeModel TableModel.
From Verif Require ResponderModel.
From Verif Require Import BencodeSpec DhtMsgModel DhtMsgSpec DhtMsgProofs DhtMsgProps.
From Coq Require Import String. From Coq Require Import List. Import ListNotations.
Local Close Scope string_scope.

(** * What is asked and answered, as bencoded values *)

(** The texts a list begins with. *)
Fixpoint leading (l : list bval) : list (list Z) := match l with BStr s :: l' => s :: leading l' | _ => [] end.

(** Nodes of which families are asked for: that of the sender and those of "want". *)
Definition wanted (v6 : bool) (a : dict) : bool * bool :=
  let ts := match listOf (lit "want") a with Some l => leading l | None => [] end in
  (negb v6 || existsb (list_eqb (lit "n4")) ts, v6 || existsb (list_eqb (lit "n6")) ts).

Definition contact_of (n : nodeInfo) : contact := (firstn 20 (id n), firstn (ip_length (ipv6 n)) (addrBytes n), port n).
Definition wires (l : list nodeInfo) : list Z := concat (map (fun n => wire (contact_of n)) l).

(** What the code puts into "nodes": the IPv4 nodes, then the IPv6 nodes; nothing if no node is known at all. *)
Definition nodes_part (w : bool * bool) (found : list nodeInfo) : dict :=
  match found with
  | [] => []
  | _ => [text_of "nodes" (wires (filter (fun n => negb (ipv6 n) && fst w) found) ++ wires (filter (fun n => ipv6 n && snd w) found))]
  end.

Definition peer_text (a : addr) : list Z := firstn (ip_length (AddrModel.ipv6 a)) (AddrModel.addrBytes a) ++ be 2 (AddrModel.port a).
Definition values_part (ps : list addr) : dict := match ps with [] => [] | _ => [(lit "values", BList (map (fun a => BStr (peer_text a)) ps))] end.

Definition reply (own t : list Z) (body : dict) : bval :=
  BDict [text_of "t" t; text_of "y" (lit "r"); (lit "r", BDict (text_of "id" own :: body))].

Definition has20 (k : string) (a : dict) : bool := Nat.eqb (List.length (textOf (lit k) a)) 20.

(** The port of a peer that announces itself. *)
Definition port_of (s : source) (a : dict) : Z :=
  let p := i32 (numberOf (lit "port") a) in
  if (i32 (numberOf (lit "implied_port") a) =? 1) || (p =? 0) then srcPort s else u16 p.

Section Answer.
Variables (own junk : list Z) (maxResponse maxStored now : Z) (s : source) (re : responder).

Definition sender (i : list Z) : nodeInfo :=
  {| id := i; addrBytes := AddrModel.addrBytes (setAddr junk (srcBytes s) (srcPort s) (srcV6 s)); port := srcPort s; ipv6 := srcV6 s |}.
(** the sender is a node that responded, and what is stored may be changed *)
Definition after (i : list Z) (vs : ResponderModel.values) : responder :=
  {| reTable := nodeResponded own (reTable re) (sender i) now; reSecrets := reSecrets re; reValues := vs |}.

Definition method (q : list Z) (a : dict) : option (dict * ResponderModel.values) :=
  if list_eqb (lit "find_node") q then
    if has20 "target" a then Some (nodes_part (wanted (srcV6 s) a) (getClosestNodes own (reTable re) (textOf (lit "target") a)), reValues re) else None
  else if list_eqb (lit "get_peers") q then
    if has20 "info_hash" a then
      Some (nodes_part (wanted (srcV6 s) a) (getClosestNodes own (reTable re) (textOf (lit "info_hash") a)) ++
            values_part (ResponderModel.answerPeers maxResponse (reValues re) (textOf (lit "info_hash") a) (srcV6 s)) ++
            [text_of "token" (le 4 (ResponderModel.tokenFor (reSecrets re) (srcText s)))], reValues re)
    else None
  else if list_eqb (lit "announce_peer") q then
    if has20 "info_hash" a && Nat.eqb (List.length (textOf (lit "token") a)) 4 && ResponderModel.isValidToken (reSecrets re) (unle (textOf (lit "token") a)) (srcText s)
    then Some ([], ResponderModel.announcedPeer maxStored (reValues re) (textOf (lit "info_hash") a) (setAddr junk (srcBytes s) (port_of s a) (srcV6 s)) now)
    else None
  else Some ([], reValues re).

Definition answer (d : dict) : option (bval * responder) :=
  match lookup (lit "y") KStr d, lookup (lit "t") KStr d, lookup (lit "q") KStr d, dictOf (lit "a") d with
  | Some (BStr y), Some (BStr t), Some (BStr q), Some a =>
    if list_eqb (lit "q") y && has20 "id" a then
      match method q a with Some (body, vs) => Some (reply own t body, after (textOf (lit "id") a) vs) | None => None end
    else None
  | _, _, _, _ => None
  end.

(** * The code does that *)

Hypothesis own_ok : List.length own = 20%nat.

Lemma head_ok t body entries : body = concat (map (fun kv => (toString (zlen (fst kv)) ++ [58] ++ fst kv) ++ bencode (snd kv)) entries) ->
  (lit "d1:t" ++ toString (zlen t) ++ [58] ++ t ++ lit "1:y1:r" ++ lit "1:rd2:id20:" ++ own) ++ body ++ lit "ee" = bencode (reply own t entries).
Proof.
  intros ->. unfold reply, text_of. cbn [bencode map concat fst snd]. rewrite (zlen_20 own own_ok). change (toString 20) with [50; 48]. lits. flat. reflexivity.
Qed.

Lemma writeNode_ok n : writeNode n = wire (contact_of n).
Proof. unfold writeNode, wire, contact_of. cbn [fst snd]. rewrite le_bswap. destruct (ipv6 n); reflexivity. Qed.

Lemma writeNodes_wires l : concat (map writeNode l) = wires l.
Proof. unfold wires. f_equal. apply map_ext. apply writeNode_ok. Qed.

Section P.
Variables (fuel : nat) (m : list Z) (objs : list obj).

Lemma wantLoop_ok l : forall f a v4 v6, ritems m objs l a -> (List.length l <= f)%nat ->
  wantLoop m objs f a v4 v6 = Val (v4 || existsb (list_eqb (lit "n4")) (leading l), v6 || existsb (list_eqb (lit "n6")) (leading l)).
Proof.
  induction l as [|v l IH]; intros f a v4 v6 R L.
  - destruct a; [contradiction|]. cbn. rewrite !orb_false_r. destruct f; reflexivity.
  - destruct a as [j|]; [|contradiction]. cbn [ritems] in R. destruct R as [R1 R2]. destruct f as [|f]; [cbn in L; lia|]. cbn [wantLoop].
    destruct v as [n|t|x|x]; destruct R1 as (_ & T & R1); rewrite T; cbn [typeEqb leading existsb]; rewrite ?orb_false_r; try reflexivity.
    rewrite !(item_equals m _ t _ R1). cbn [obind]. rewrite IH by (auto; cbn in L; lia). do 2 f_equal; rewrite <- ?orb_assoc; [reflexivity|]. f_equal. f_equal.
    destruct (list_eqb (lit "n4") t) eqn:E4; [|reflexivity]. apply list_eqb_spec in E4. subst t. reflexivity.
Qed.

Lemma writeNodes_ok v6 a i found : reads m objs (BDict a) i -> (nodes (BDict a) <= fuel)%nat ->
  writeNodes fuel m objs v6 i found = Val (concat (map (fun kv => (toString (zlen (fst kv)) ++ [58] ++ fst kv) ++ bencode (snd kv)) (nodes_part (wanted v6 a) found))).
Proof.
  intros R L. rewrite nodes_dict in L. pose proof (dnodes_length a) as DL. unfold writeNodes, wanted, listOf. pose proof (getObject_ok m objs a i (lit "want") KList fuel R) as G. change TList with (otype_of KList).
  assert (E : exists o, getObject fuel m objs i (lit "want") (otype_of KList) = Val o /\
    (match o with None => Val (negb v6, v6) | Some k => wantLoop m objs fuel (getFirstItem objs k) (negb v6) v6 end) = Val (wanted v6 a)).
  { unfold wanted, listOf. destruct (lookup (lit "want") KList a) as [v|] eqn:E.
    - pose proof (lookup_kind _ _ _ _ E) as K. pose proof (lookup_nodes _ _ _ _ E) as LN. destruct v as [| |l|]; try discriminate. destruct G as (k & G & RK); [lia|]. exists (Some k). split; [exact G|].
      apply reads_list in RK as (_ & _ & _ & RI). cbn [nodes] in LN. pose proof (length_nodes l). now rewrite (wantLoop_ok l) by (auto; lia).
    - exists None. split; [apply G; lia|]. cbn [existsb]. rewrite !orb_false_r. reflexivity. }
  destruct E as (o & E1 & E2). rewrite E1. cbn [obind]. rewrite E2. cbn [obind]. fold (wanted v6 a) in *. unfold wanted, listOf in *. 
  set (w := (_, _)) in *. clearbody w. destruct found as [|n found]; [reflexivity|]. set (fs := n :: found) in *. unfold nodes_part. fold fs.
  destruct fs eqn:EF; [discriminate|]. rewrite <- EF. rewrite !writeNodes_wires. f_equal. unfold text_of. cbn [map concat fst snd bencode]. rewrite zlen_app. lits. flat. reflexivity.
Qed.

Lemma values_ok ps : Forall (fun a => AddrModel.ipv6 a = srcV6 s /\ List.length (AddrModel.addrBytes a) = 16%nat) ps ->
  writeValues (srcV6 s) ps = concat (map (fun kv => (toString (zlen (fst kv)) ++ [58] ++ fst kv) ++ bencode (snd kv)) (values_part ps)).
Proof.
  intros F. unfold writeValues, values_part. destruct ps as [|p ps]; [reflexivity|]. set (l := p :: ps) in *. clearbody l.
  assert (E : concat (map (fun a => lit (if srcV6 s then "18:" else "6:") ++ firstn (addrSize (srcV6 s)) (AddrModel.addrBytes a) ++ le 2 (bswap 2 (AddrModel.port a))) l) =
    concat (map bencode (map (fun a => BStr (peer_text a)) l))).
  { f_equal. rewrite map_map. apply map_ext_in. intros a Ia. rewrite Forall_forall in F. destruct (F a Ia) as [F1 F2]. rewrite le_bswap. cbn [bencode]. unfold peer_text. rewrite F1.
    assert (Z : zlen (firstn (ip_length (srcV6 s)) (AddrModel.addrBytes a) ++ be 2 (AddrModel.port a)) = if srcV6 s then 18 else 6)
      by (unfold zlen; rewrite app_length, firstn_length, be_length, F2; destruct (srcV6 s); reflexivity).
    rewrite Z. destruct (srcV6 s); lits; reflexivity. }
  rewrite E. cbn [map concat fst snd]. change (bencode (BList ?x)) with ([108] ++ concat (map bencode x) ++ [101]). lits. flat. reflexivity.
Qed.

Hypothesis stored_ok : forall h, Forall (fun a => List.length (AddrModel.addrBytes a) = 16%nat) (ResponderModel.answerPeers maxResponse (reValues re) h (srcV6 s)).

Lemma answer_family h : Forall (fun a => AddrModel.ipv6 a = srcV6 s /\ List.length (AddrModel.addrBytes a) = 16%nat) (ResponderModel.answerPeers maxResponse (reValues re) h (srcV6 s)).
Proof.
  pose proof (stored_ok h) as S. revert S. unfold ResponderModel.answerPeers. destruct (ResponderModel.lookup h (reValues re)) as [l|]; [|intros; apply Forall_nil].
  generalize (if srcV6 s then maxResponse / 3 else maxResponse). intros mx. generalize 0. induction l as [|v l IH]; intros n S; cbn [ResponderModel.pickValues] in *; [apply Forall_nil|].
  destruct ((n <? mx) && Bool.eqb (AddrModel.ipv6 (ResponderModel.vaddr v)) (srcV6 s)) eqn:E; [|now apply IH]. inversion S; subst. apply Forall_cons; [|now apply IH]. split; [|assumption].
  apply andb_prop in E as [_ E]. now apply Bool.eqb_prop in E.
Qed.

Lemma textOf_item k d o : reads m objs (BDict d) o -> (List.length d <= fuel)%nat ->
  (exists it, txtItem fuel m objs o (lit k) = Val (Some it) /\ itemText m it = Val (textOf (lit k) d) /\ (exists t, lookup (lit k) KStr d = Some (BStr t) /\ textOf (lit k) d = t)) \/
  (txtItem fuel m objs o (lit k) = Val None /\ textOf (lit k) d = [] /\ lookup (lit k) KStr d = None).
Proof.
  intros R L. pose proof (txtItem_ok fuel m objs d o (lit k) R L) as G. unfold textOf. destruct (lookup (lit k) KStr d) as [v|] eqn:E.
  - pose proof (lookup_kind _ _ _ _ E) as K. destruct v; try discriminate. destruct G as (it & G1 & G2). left. eauto 6.
  - right. auto.
Qed.

Lemma item_20 it t n : itemText m it = Val t -> (osize it =? Z.of_nat n) = Nat.eqb (List.length t) n.
Proof. intros H. apply item_size in H as (-> & _). unfold zlen. destruct (Nat.eqb_spec (List.length t) n) as [->|N]; [apply Z.eqb_refl|]. apply Z.eqb_neq. lia. Qed.

Lemma handleRoot_ok d : reads m objs (BDict d) 0 -> (dnodes d <= fuel)%nat -> bval_ok (BDict d) ->
  (forall a, dictOf (lit "a") d = Some a -> numberOf (lit "port") a < 9223372036854775808 /\ numberOf (lit "implied_port") a < 9223372036854775808) ->
  handleRoot fuel m objs junk own maxResponse maxStored now s re = Val (option_map (fun p => (bencode (fst p), snd p)) (answer d)).
Proof.
  intros R L O NB. pose proof (dnodes_length d) as DL. unfold handleRoot, answer.
  destruct (textOf_item "y" d 0 R ltac:(lia)) as [(y & Y1 & Y2 & ty & Y3 & Y4)|(Y1 & Y2 & Y3)]; rewrite Y1, Y3; cbn [obind]; [|reflexivity]. rewrite Y4 in Y2. clear Y1 Y3 Y4.
  rewrite (item_equals m y ty _ Y2). cbn [obind]. destruct (list_eqb (lit "q") ty) eqn:EY; [|destruct (lookup (lit "t") KStr d) as [[| | |]|], (lookup (lit "q") KStr d) as [[| | |]|], (dictOf (lit "a") d); reflexivity]. clear Y2.
  destruct (textOf_item "t" d 0 R ltac:(lia)) as [(t & T1 & T2 & tt & T3 & T4)|(T1 & T2 & T3)]; rewrite T1, T3; cbn [obind].
  2: { destruct (textOf_item "q" d 0 R ltac:(lia)) as [(q & Q1 & _)|(Q1 & _)]; rewrite Q1; cbn [obind]; pose proof (getObject_ok m objs d 0 (lit "a") KDict fuel R ltac:(lia)) as G; change TDict with (otype_of KDict); destruct (lookup (lit "a") KDict d); [destruct G as (? & -> & _)|rewrite G|destruct G as (? & -> & _)|rewrite G]; reflexivity. }
  rewrite T4 in T2. clear T1 T3 T4.
  destruct (textOf_item "q" d 0 R ltac:(lia)) as [(q & Q1 & Q2 & tq & Q3 & Q4)|(Q1 & Q2 & Q3)]; rewrite Q1, Q3; cbn [obind].
  2: { pose proof (getObject_ok m objs d 0 (lit "a") KDict fuel R ltac:(lia)) as G; change TDict with (otype_of KDict); destruct (lookup (lit "a") KDict d); [destruct G as (? & -> & _)|rewrite G]; reflexivity. }
  rewrite Q4 in Q2. clear Q1 Q3 Q4.
  pose proof (getObject_ok m objs d 0 (lit "a") KDict fuel R ltac:(lia)) as G. change TDict with (otype_of KDict). unfold dictOf at 1. destruct (lookup (lit "a") KDict d) as [v|] eqn:EA; [|rewrite G; reflexivity].
  pose proof (lookup_kind _ _ _ _ EA) as K. destruct v as [| | |a]; try discriminate. destruct G as (i & -> & RA). cbn [obind].
  assert (EA' : dictOf (lit "a") d = Some a) by (unfold dictOf; now rewrite EA). specialize (NB a EA'). destruct NB as [NB1 NB2].
  destruct (inner _ _ _ fuel L O EA') as (LA & OA & _). pose proof LA as LA'. rewrite nodes_dict in LA'. pose proof (dnodes_length a) as DA.
  assert (TI : forall k, List.length (textOf (lit k) a) = 0%nat -> has20 k a = false) by (intros k Hk; unfold has20; now rewrite Hk).
  destruct (textOf_item "id" a i RA ltac:(lia)) as [(x & X1 & X2 & _)|(X1 & X2 & _)]; rewrite X1; cbn [obind].
  2: { rewrite TI by (now rewrite X2). reflexivity. }
  change 20 with (Z.of_nat 20) at 1. rewrite (item_20 x _ 20 X2). fold (has20 "id" a). cbn [andb]. destruct (has20 "id" a); [|reflexivity].
  rewrite T2, X2. cbn [obind]. unfold method. rewrite !(item_equals m q tq _ Q2). cbn [obind].
  destruct (list_eqb (lit "find_node") tq).
  { destruct (textOf_item "target" a i RA ltac:(lia)) as [(g & G1 & G2 & _)|(G1 & G2 & _)]; rewrite G1; cbn [obind]; [|rewrite TI by (now rewrite G2); reflexivity].
    change 20 with (Z.of_nat 20). rewrite (item_20 g _ 20 G2). fold (has20 "target" a). destruct (has20 "target" a); [|reflexivity]. rewrite G2. cbn [obind].
    rewrite (writeNodes_ok _ a i _ RA LA). cbn [obind option_map fst snd]. do 3 f_equal. apply head_ok. reflexivity. }
  destruct (list_eqb (lit "get_peers") tq).
  { destruct (textOf_item "info_hash" a i RA ltac:(lia)) as [(g & G1 & G2 & _)|(G1 & G2 & _)]; rewrite G1; cbn [obind]; [|rewrite TI by (now rewrite G2); reflexivity].
    change 20 with (Z.of_nat 20). rewrite (item_20 g _ 20 G2). fold (has20 "info_hash" a). destruct (has20 "info_hash" a); [|reflexivity]. rewrite G2. cbn [obind].
    rewrite (writeNodes_ok _ a i _ RA LA). cbn [obind option_map fst snd]. do 3 f_equal. apply head_ok. rewrite (values_ok _ (answer_family _)).
    rewrite !map_app, !concat_app. f_equal. }
  destruct (list_eqb (lit "announce_peer") tq); [|cbn [option_map fst snd]; do 3 f_equal; apply (head_ok tt [] []); reflexivity].
  destruct (textOf_item "info_hash" a i RA ltac:(lia)) as [(g & G1 & G2 & _)|(G1 & G2 & _)]; rewrite G1; cbn [obind].
  2: { rewrite (TI "info_hash"%string) by (now rewrite G2). destruct (textOf_item "token" a i RA ltac:(lia)) as [(k & K1 & _)|(K1 & _)]; rewrite K1; reflexivity. }
  destruct (textOf_item "token" a i RA ltac:(lia)) as [(k & K1 & K2 & _)|(K1 & K2 & _)]; rewrite K1; cbn [obind].
  2: { rewrite K2. cbn [List.length Nat.eqb]. rewrite andb_false_r. reflexivity. }
  change 20 with (Z.of_nat 20). rewrite (item_20 g _ 20 G2). change 4 with (Z.of_nat 4). rewrite (item_20 k _ 4 K2). fold (has20 "info_hash" a). destruct (has20 "info_hash" a && _); cbn [andb]; [|reflexivity].
  rewrite K2. cbn [obind]. destruct (ResponderModel.isValidToken _ _ _); [|reflexivity]. rewrite G2. cbn [obind].
  rewrite (int_ok fuel m objs a i (lit "port") RA) by (auto; lia). cbn [obind]. rewrite (int_ok fuel m objs a i (lit "implied_port") RA) by (auto; lia). cbn [obind option_map fst snd].
  do 3 f_equal. apply (head_ok tt [] []). reflexivity.
Qed.

End P.
End Answer.

(** C82: every message that is a bencoded dictionary, whatever it holds and whatever follows it in memory, is answered as
    [answer] says: nothing for anything but a complete request, one reply with the number of the request otherwise. *)
Theorem C82_answer : forall fuel d c rest junk own maxResponse maxStored now s re,
  message_ok fuel d -> List.length own = 20%nat ->
  (forall h, Forall (fun a => List.length (AddrModel.addrBytes a) = 16%nat) (ResponderModel.answerPeers maxResponse (reValues re) h (srcV6 s))) ->
  (forall a, dictOf (lit "a") d = Some a -> numberOf (lit "port") a < 9223372036854775808 /\ numberOf (lit "implied_port") a < 9223372036854775808) ->
  handlePacket fuel (bencode (BDict d) ++ c :: rest) (zlen (bencode (BDict d))) junk own maxResponse maxStored now s re =
  Val (option_map (fun p => (bencode (fst p), snd p)) (answer own junk maxResponse maxStored now s re d)).
Proof.
  intros fuel d c rest junk own maxResponse maxStored now s re M LO ST NB. destruct (parsed fuel _ c rest d M eq_refl) as (p & P & R & K & L).
  unfold handlePacket. destruct (Z.eqb_spec (zlen (bencode (BDict d))) 0) as [Z|Z].
  { exfalso. change (bencode (BDict d)) with (100 :: (concat (map (fun kv => (toString (zlen (fst kv)) ++ [58] ++ fst kv) ++ bencode (snd kv)) d) ++ [101])) in Z. rewrite zlen_cons in Z. pose proof (zlen_nonneg (concat (map (fun kv => (toString (zlen (fst kv)) ++ [58] ++ fst kv) ++ bencode (snd kv)) d) ++ [101])). lia. }
  rewrite P. cbn [obind]. rewrite K. apply handleRoot_ok; try assumption. apply M.
Qed.
Print Assumptions C82_answer.

(** A complete request is always answered, with its own number, unless its arguments are missing or its token is wrong;
    nothing else is answered. *)
Theorem C82_answered : forall own junk maxResponse maxStored now s re d,
  (forall v re', answer own junk maxResponse maxStored now s re d = Some (v, re') ->
     exists t q a body, lookup (lit "y") KStr d = Some (BStr (lit "q")) /\ lookup (lit "t") KStr d = Some (BStr t) /\ lookup (lit "q") KStr d = Some (BStr q) /\
       dictOf (lit "a") d = Some a /\ List.length (textOf (lit "id") a) = 20%nat /\ v = reply own t body /\
       reTable re' = nodeResponded own (reTable re) (sender junk s (textOf (lit "id") a)) now /\ reSecrets re' = reSecrets re /\
       (reValues re' <> reValues re -> q = lit "announce_peer" /\ List.length (textOf (lit "token") a) = 4%nat /\
          ResponderModel.isValidToken (reSecrets re) (unle (textOf (lit "token") a)) (srcText s) = true)) /\
  (forall t a, lookup (lit "y") KStr d = Some (BStr (lit "q")) -> lookup (lit "t") KStr d = Some (BStr t) -> dictOf (lit "a") d = Some a -> List.length (textOf (lit "id") a) = 20%nat ->
     (lookup (lit "q") KStr d = Some (BStr (lit "ping")) \/
      (lookup (lit "q") KStr d = Some (BStr (lit "find_node")) /\ List.length (textOf (lit "target") a) = 20%nat) \/
      (lookup (lit "q") KStr d = Some (BStr (lit "get_peers")) /\ List.length (textOf (lit "info_hash") a) = 20%nat) \/
      (lookup (lit "q") KStr d = Some (BStr (lit "announce_peer")) /\ List.length (textOf (lit "info_hash") a) = 20%nat /\
       List.length (textOf (lit "token") a) = 4%nat /\ ResponderModel.isValidToken (reSecrets re) (unle (textOf (lit "token") a)) (srcText s) = true)) ->
     exists body re', answer own junk maxResponse maxStored now s re d = Some (reply own t body, re')).
Proof.
  intros own junk maxResponse maxStored now s re d. split.
  - intros v re' E. unfold answer in E. destruct (lookup (lit "y") KStr d) as [[|y| |]|]; try discriminate. destruct (lookup (lit "t") KStr d) as [[|t| |]|]; try discriminate.
    destruct (lookup (lit "q") KStr d) as [[|q| |]|]; try discriminate. destruct (dictOf (lit "a") d) as [a|]; [|discriminate]. destruct (list_eqb (lit "q") y) eqn:EY; [|discriminate]. apply list_eqb_spec in EY. subst y.
    unfold has20 at 1 in E. destruct (Nat.eqb_spec (List.length (textOf (lit "id") a)) 20) as [LI|]; [|discriminate]. cbn [andb] in E.
    destruct (method own junk maxResponse maxStored now s re q a) as [[body vs]|] eqn:EM; [|discriminate]. injection E as <- <-.
    exists t, q, a, body. repeat (split; [first [reflexivity|exact LI]|]). cbn [after reValues]. intros NV. unfold method in EM.
    destruct (list_eqb (lit "find_node") q); [destruct (has20 "target" a); [|discriminate]; injection EM as _ <-; congruence|].
    destruct (list_eqb (lit "get_peers") q); [destruct (has20 "info_hash" a); [|discriminate]; injection EM as _ <-; congruence|].
    destruct (list_eqb (lit "announce_peer") q) eqn:EQ; [|injection EM as _ <-; congruence]. apply list_eqb_spec in EQ. split; [now symmetry|].
    destruct (has20 "info_hash" a); [|discriminate]. destruct (Nat.eqb_spec (List.length (textOf (lit "token") a)) 4); [|discriminate]. cbn [andb] in EM. destruct (ResponderModel.isValidToken _ _ _); [auto|discriminate].
  - intros t a Y T A I Q. unfold answer. rewrite Y, T, A. destruct Q as [Q|[[Q G]|[[Q G]|(Q & G & K & V)]]]; rewrite Q; unfold method, has20; rewrite I, ?G, ?K, ?V; (eexists; eexists; reflexivity).
Qed.
Print Assumptions C82_answered.

(** Finding (BEP 32: IPv6 nodes go into "nodes6"): no answer ever has "nodes6"; the IPv6 nodes are appended to "nodes". *)
Theorem C82_nodes6_refuted : forall own junk maxResponse maxStored now s re q a body vs,
  method own junk maxResponse maxStored now s re q a = Some (body, vs) -> lookup (lit "nodes6") KStr body = None.
Proof.
  intros own junk maxResponse maxStored now s re q a body vs. unfold method.
  assert (N : forall w f, lookup (lit "nodes6") KStr (nodes_part w f) = None) by (intros w [|n f]; reflexivity).
  destruct (list_eqb (lit "find_node") q).
  { destruct (has20 "target" a); [|discriminate]. intros E. injection E as <- _. apply N. }
  destruct (list_eqb (lit "get_peers") q).
  { destruct (has20 "info_hash" a); [|discriminate]. intros E. injection E as <- _. unfold nodes_part, values_part. destruct (getClosestNodes _ _ _), (ResponderModel.answerPeers _ _ _ _); reflexivity. }
  destruct (list_eqb (lit "announce_peer") q); [destruct (has20 "info_hash" a && _ && _); [|discriminate]|]; intros E; injection E as <- _; reflexivity.
Qed.
Print Assumptions C82_nodes6_refuted.

(** Finding (BEP 5: error 204 for an unknown method): a request with any other method is answered like a ping. *)
Theorem C82_unknown_refuted : forall own junk maxResponse maxStored now s re q a,
  q <> lit "find_node" -> q <> lit "get_peers" -> q <> lit "announce_peer" -> method own junk maxResponse maxStored now s re q a = Some ([], reValues re).
Proof.
  intros own junk maxResponse maxStored now s re q a N1 N2 N3. unfold method.
  repeat match goal with |- context[list_eqb ?x q] => let E := fresh in destruct (list_eqb x q) eqn:E; [apply list_eqb_spec in E; congruence|] end. reflexivity.
Qed.
Print Assumptions C82_unknown_refuted.

(** Finding: the port 65536 (any multiple) is neither taken as missing nor as wrong: the peer is stored with the port 0. *)
Theorem C82_port_refuted : forall s, port_of s [(lit "port", BInt 65536)] = 0.
Proof. reflexivity. Qed.
Print Assumptions C82_port_refuted.

(** * One client asks another *)

Lemma args_ok l : Forall (fun kv => bytes_ok (fst kv) /\ bval_ok (snd kv)) l -> bval_ok (BDict l).
Proof. intros H. cbn [bval_ok]. apply fold_and. exact H. Qed.

Lemma lit_ok x : bytes_okb (lit x) = true -> bytes_ok (lit x). Proof. apply bytes_okb_spec. Qed.

Ltac entries := repeat first [apply Forall_nil | apply Forall_cons; [split; [apply lit_ok; reflexivity|cbn [fst snd text_of bval_ok]]|] | apply Forall_app; split].
Ltac simple_value := first [assumption | apply lit_ok; reflexivity | apply le_bytes | lia | idtac].

Definition requests (name : string) (args rest : dict) (tr : Z) : dict := match request name args rest tr with BDict d => d | _ => [] end.
Lemma requests_ok name args rest tr : BDict (requests name args rest tr) = request name args rest tr. Proof. reflexivity. Qed.

Definition replies (own t : list Z) (body : dict) : dict := match reply own t body with BDict d => d | _ => [] end.
Lemma replies_ok own t body : BDict (replies own t body) = reply own t body. Proof. reflexivity. Qed.

Definition id20 (i : list Z) : Prop := List.length i = 20%nat /\ bytes_ok i.

Lemma want_ok both : Forall (fun kv => bytes_ok (fst kv) /\ bval_ok (snd kv)) (wants both).
Proof. destruct both; [|apply Forall_nil]. apply Forall_cons; [|apply Forall_nil]. split; [apply lit_ok; reflexivity|]. cbn [snd bval_ok map fold_right]. repeat split; apply lit_ok; reflexivity. Qed.

Lemma ping_ok fuel own tr : (40 <= fuel)%nat -> id20 own -> message_ok fuel (requests "ping" [text_of "id" own] [] tr).
Proof.
  intros F [LO BO]. unfold message_ok. rewrite requests_ok. split; [|split; [reflexivity|split; [|cbn; lia]]].
  - apply args_ok. cbn [app]. entries; simple_value. repeat split; [apply lit_ok; reflexivity|assumption].
  - rewrite <- (proj1 (proj2 (proj2 (C80_requests own own true tr [] 0 0 LO LO)))). unfold pingRequest. rewrite !zlen_app, (zlen_20 own LO). change (zlen (le 2 tr)) with 2. reflexivity.
Qed.

Lemma find_ok fuel own hash both tr : (40 <= fuel)%nat -> id20 own -> id20 hash -> message_ok fuel (requests "find_node" ([text_of "id" own; text_of "target" hash] ++ wants both) [] tr).
Proof.
  intros F [LO BO] [LH BH]. unfold message_ok. rewrite requests_ok. split; [|split; [destruct both; reflexivity|split; [|destruct both; cbn; lia]]].
  - apply args_ok. cbn [app]. entries; simple_value. change (bval_ok (BDict (text_of "id" own :: text_of "target" hash :: wants both))). apply args_ok. entries; simple_value. apply want_ok.
  - rewrite <- (proj1 (proj2 (C80_requests own hash both tr [] 0 0 LO LH))). unfold findNodeRequest. rewrite !zlen_app, (zlen_20 own LO), (zlen_20 hash LH). change (zlen (le 2 tr)) with 2. destruct both; reflexivity.
Qed.

Lemma get_ok fuel own hash both tr : (40 <= fuel)%nat -> id20 own -> id20 hash -> message_ok fuel (requests "get_peers" ([text_of "id" own; text_of "info_hash" hash] ++ wants both) [text_of "v" (lit "mt09")] tr).
Proof.
  intros F [LO BO] [LH BH]. unfold message_ok. rewrite requests_ok. split; [|split; [destruct both; reflexivity|split; [|destruct both; cbn; lia]]].
  - apply args_ok. cbn [app]. entries; simple_value. change (bval_ok (BDict (text_of "id" own :: text_of "info_hash" hash :: wants both))). apply args_ok. entries; simple_value. apply want_ok.
  - rewrite <- (proj1 (C80_requests own hash both tr [] 0 0 LO LH)). unfold getPeersRequest. rewrite !zlen_app, (zlen_20 own LO), (zlen_20 hash LH). change (zlen (le 2 tr)) with 2. destruct both; reflexivity.
Qed.

Definition announce_args (own hash token : list Z) (tcpPort udpPort : Z) : dict :=
  [text_of "id" own] ++ (if tcpPort =? udpPort then [(lit "implied_port", BInt 1)] else []) ++ [(lit "port", BInt udpPort); text_of "info_hash" hash; text_of "token" token].

Lemma decDigits_length f : forall n, (List.length (decDigits f n) <= f)%nat.
Proof. induction f as [|f IH]; intros n; cbn [decDigits]; [cbn; lia|]. destruct (n <? 10); [cbn; lia|]. rewrite app_length. specialize (IH (n / 10)). cbn [List.length]. lia. Qed.

Lemma toString_short n : 0 <= n < 65536 -> zlen (toString n) < 100.
Proof.
  intros H. unfold toString, zlen. pose proof (decDigits_length (S (Z.to_nat (Z.log2 n))) n) as L. pose proof (Z.log2_le_mono n 65535 ltac:(lia)) as M. change (Z.log2 65535) with 15 in M. lia.
Qed.

Lemma announce_ok fuel own hash token tcpPort udpPort tr : (40 <= fuel)%nat -> id20 own -> id20 hash -> List.length token = 4%nat -> bytes_ok token -> 0 <= udpPort < 65536 ->
  message_ok fuel (requests "announce_peer" (announce_args own hash token tcpPort udpPort) [] tr).
Proof.
  intros F [LO BO] [LH BH] LT BT P. unfold message_ok. rewrite requests_ok. split; [|split; [unfold announce_args; destruct (tcpPort =? udpPort); reflexivity|split; [|unfold announce_args; destruct (tcpPort =? udpPort); cbn; lia]]].
  - apply args_ok. cbn [app]. entries; simple_value. change (bval_ok (BDict (announce_args own hash token tcpPort udpPort))). apply args_ok. unfold announce_args. destruct (tcpPort =? udpPort); entries; simple_value.
  - unfold announce_args. rewrite <- (proj2 (proj2 (proj2 (C80_requests own hash true tr token tcpPort udpPort LO LH)))). unfold announceRequest. rewrite !zlen_app, (zlen_20 own LO), (zlen_20 hash LH). change (zlen (le 2 tr)) with 2.
    pose proof (toString_short udpPort P). assert (Z : zlen token = 4) by (unfold zlen; now rewrite LT). rewrite Z. change (zlen (toString 4)) with 1.
    assert (B : zlen (if tcpPort =? udpPort then lit "12:implied_porti1e" else []) <= 18) by (destruct (tcpPort =? udpPort); vm_compute; discriminate).
    repeat match goal with |- context[zlen (lit ?x)] => let v := eval vm_compute in (zlen (lit x)) in change (zlen (lit x)) with v end. change (zlen [101]) with 1. change (zlen [58]) with 1. lia.
Qed.

Lemma read_trans tr body own : 0 <= tr < 65536 -> unle (firstn 2 (textOf (lit "t") (replies own (le 2 tr) body))) = tr.
Proof. intros H. change (textOf (lit "t") (replies own (le 2 tr) body)) with (le 2 tr). rewrite <- (le_length 2 tr) at 1. rewrite firstn_all. apply unle_le. cbn. lia. Qed.

Lemma no_numbers a : lookup (lit "port") KInt a = None -> lookup (lit "implied_port") KInt a = None -> numberOf (lit "port") a < 9223372036854775808 /\ numberOf (lit "implied_port") a < 9223372036854775808.
Proof. intros E1 E2. unfold numberOf. rewrite E1, E2. lia. Qed.

