(** C80, C81: what DHT requests say, and what is read from answers. *)
From Verif Require Import Base BaseLemmas Dec DecLemmas PacketModel AddrModel BencodeModel BencodeSpec BencodeProofs StateModel StateProps TfSpec TfProofs TfReads NodeModel TableModel.
From Verif Require Import BencodeSpec DhtMsgModel DhtMsgSpec DhtMsgProofs.
From Coq Require Import String. From Coq Require Import List. Import ListNotations.
Local Close Scope string_scope.

(** * Requests *)

Definition text_of (s : string) (v : list Z) : list Z * bval := (lit s, BStr v).
Definition request (name : string) (args rest : dict) (tr : Z) : bval :=
  BDict ([(lit "a", BDict args); text_of "q" (lit name)] ++ rest ++ [text_of "t" (le 2 tr); text_of "y" (lit "q")]).
Definition wants (both : bool) : dict := if both then [(lit "want", BList [BStr (lit "n4"); BStr (lit "n6")])] else [].

Lemma zlen_20 (l : list Z) : List.length l = 20%nat -> zlen l = 20. Proof. unfold zlen. intros ->. reflexivity. Qed.

Ltac lits := repeat match goal with |- context[lit ?s] => let v := eval vm_compute in (lit s) in change (lit s) with v end;
  repeat match goal with |- context[toString (zlen ?l)] => let v := eval vm_compute in (toString (zlen l)) in match v with _ :: _ => change (toString (zlen l)) with v end end.
Ltac flat := repeat (progress (rewrite <- ?app_assoc, ?app_nil_r; cbn [app])).

(** Each request is one bencoded dictionary with the method, its arguments, the number of the request in two bytes and the id
    of this client; the peer announced has the port [udpPort]. *)
Theorem C80_requests : forall own hash both tr token tcpPort udpPort, List.length own = 20%nat -> List.length hash = 20%nat ->
  getPeersRequest own hash both tr = bencode (request "get_peers" ([text_of "id" own; text_of "info_hash" hash] ++ wants both) [text_of "v" (lit "mt09")] tr) /\
  findNodeRequest own hash both tr = bencode (request "find_node" ([text_of "id" own; text_of "target" hash] ++ wants both) [] tr) /\
  pingRequest own tr = bencode (request "ping" [text_of "id" own] [] tr) /\
  announceRequest own hash token tcpPort udpPort tr =
    bencode (request "announce_peer" ([text_of "id" own] ++ (if tcpPort =? udpPort then [(lit "implied_port", BInt 1)] else []) ++
      [(lit "port", BInt udpPort); text_of "info_hash" hash; text_of "token" token]) [] tr).
Proof.
  intros own hash both tr token tcpPort udpPort LO LH. apply zlen_20 in LO, LH.
  assert (LT : zlen (le 2 tr) = 2) by (unfold zlen; rewrite le_length; reflexivity).
  unfold getPeersRequest, findNodeRequest, pingRequest, announceRequest, request, text_of, wants.
  destruct both; destruct (tcpPort =? udpPort); (split; [|split; [|split]]); cbn [bencode map concat fst snd app]; rewrite ?LO, ?LH, ?LT; lits;
  change (toString 20) with [50; 48]; change (toString 2) with [50]; change (toString 1) with [49]; flat; reflexivity.
Qed.
Print Assumptions C80_requests.

(** Finding (BEP 5: the port a peer is reached at): with different ports for TCP and UDP the request names the one of UDP. *)
Theorem C80_port_refuted : forall own hash token tcpPort udpPort tr, List.length own = 20%nat -> List.length hash = 20%nat -> tcpPort <> udpPort ->
  exists args, announceRequest own hash token tcpPort udpPort tr = bencode (request "announce_peer" args [] tr) /\
    numberOf (lit "port") args <> tcpPort /\ numberOf (lit "implied_port") args = 0.
Proof.
  intros own hash token tcpPort udpPort tr LO LH N. eexists. split; [apply (C80_requests own hash true tr token tcpPort udpPort LO LH)|].
  destruct (Z.eqb_spec tcpPort udpPort) as [E|E]; [contradiction|]. split; [intros Q; apply N; symmetry; exact Q|reflexivity].
Qed.
Print Assumptions C80_port_refuted.

(** The order of texts BEP 3 asks of the keys of a dictionary. *)
Fixpoint text_lt (a b : list Z) : bool :=
  match a, b with
  | [], [] => false
  | [], _ => true
  | _, [] => false
  | x :: a', y :: b' => (x <? y) || ((x =? y) && text_lt a' b')
  end.
Fixpoint ascending (l : list (list Z)) : bool :=
  match l with a :: (b :: _) as l' => text_lt a b && ascending l' | _ => true end.

(** Finding: the keys of a request for peers, of an announce and of its arguments are not in the order BEP 3 asks for; those
    of the other two are. *)
Theorem C80_order_refuted : forall own hash both tr token tcpPort udpPort,
  let keys v := match v with BDict d => map fst d | _ => [] end in
  ascending (keys (request "get_peers" ([text_of "id" own; text_of "info_hash" hash] ++ wants both) [text_of "v" (lit "mt09")] tr)) = false /\
  ascending (map fst ([text_of "id" own] ++ (if tcpPort =? udpPort then [(lit "implied_port", BInt 1)] else []) ++
      [(lit "port", BInt udpPort); text_of "info_hash" hash; text_of "token" token])) = false /\
  ascending (keys (request "find_node" ([text_of "id" own; text_of "target" hash] ++ wants both) [] tr)) = true /\
  ascending (keys (request "ping" [text_of "id" own] [] tr)) = true.
Proof. intros. destruct (tcpPort =? udpPort), both; repeat split; reflexivity. Qed.
Print Assumptions C80_order_refuted.

(** * Answers *)

Lemma parsed fuel m c rest d : message_ok fuel d -> m = bencode (BDict d) ++ c :: rest ->
  exists p, parse fuel m (zlen (bencode (BDict d))) = Val p /\ reads m (pobjs p) (BDict d) 0 /\ pok p && typeEqb (otyp (nth 0 (pobjs p) noObj)) TDict = true /\ (dnodes d <= fuel)%nat.
Proof.
  intros (O & N & S & F) ->. destruct (parse_bencode (BDict d) c rest fuel (zlen (bencode (BDict d))) O N ltac:(lia) S F) as (p & P & R & K & _).
  exists p. split; [exact P|]. split; [exact R|]. rewrite K. split; [|rewrite nodes_dict in F; lia]. apply reads_dict in R as (_ & T & _). rewrite T. reflexivity.
Qed.

Lemma inner k d e fuel : (dnodes d <= fuel)%nat -> bval_ok (BDict d) -> dictOf k d = Some e -> (nodes (BDict e) <= fuel)%nat /\ bval_ok (BDict e) /\ lookup k KDict d = Some (BDict e).
Proof.
  unfold dictOf. intros L O E. destruct (lookup k KDict d) as [v|] eqn:EL; [|discriminate]. pose proof (lookup_nodes _ _ _ _ EL) as LN. destruct v as [| | |e']; try discriminate. injection E as ->.
  split; [lia|]. split; [|reflexivity]. apply lookup_split in EL as (d1 & d2 & -> & _ & _). change (kv_ok (d1 ++ (k, BDict e) :: d2)) in O. apply ok_app in O as [_ O]. cbn [map fold_right fst snd] in O. apply O.
Qed.

(** What is read of any well-formed answer, whatever else it holds and whatever follows it in memory: the number of the
    request, the id, the token, the nodes of "nodes" and "nodes6" (of those with the same id the first) and the peers of
    "values". Missing: nodes and peers of a wrong size, a number of one byte, an empty "y", an error that is no number. *)
Theorem C81_read_partial : forall fuel d e c rest junk k ns ns6,
  message_ok fuel d -> dictOf (lit "r") d = Some e ->
  lookup (lit "y") KStr d <> Some (BStr []) -> (forall s, lookup (lit "y") KStr d = Some (BStr s) -> nth 0 s 0 = 114) ->
  List.length (textOf (lit "t") d) <> 1%nat -> error_ok d ->
  Forall (contact_ok false) ns -> Forall (contact_ok true) ns6 ->
  textOf (lit "nodes") e = concat (map wire ns) -> textOf (lit "nodes6") e = concat (map wire ns6) ->
  (match listOf (lit "values") e with Some l => Forall peer_ok l | None => True end) ->
  exists r, parseResponse fuel (bencode (BDict d) ++ c :: rest) (zlen (bencode (BDict d))) junk k = Val r /\
    drTrans r = unle (firstn 2 (textOf (lit "t") d)) /\ drResult r = error_of d /\
    drId r = (if Nat.eqb (List.length (textOf (lit "id") e)) 20 then Some (textOf (lit "id") e) else match k with DPing => Some (repeat 0 20) | _ => None end) /\
    map node_view (drNodes r) = (match k with DPing => [] | _ => firsts [] (map (pair false) ns ++ map (pair true) ns6) end) /\
    drToken r = (match k with DGetPeers => textOf (lit "token") e | _ => [] end) /\
    map addr_view (drValues r) = (match k with DGetPeers => map peer_of (match listOf (lit "values") e with Some l => texts l | None => [] end) | _ => [] end).
Proof.
  intros fuel d e c rest junk k ns ns6 M E Y1 Y2 T EO F4 F6 T4 T6 V. destruct (parsed fuel _ c rest d M eq_refl) as (p & P & R & K & L).
  unfold parseResponse. rewrite P. cbn [obind]. rewrite K. clear K P. set (m := bencode (BDict d) ++ c :: rest) in *. generalize dependent (pobjs p). clear p. intros objs R.
  destruct (inner _ _ _ fuel L (proj1 M) E) as (LE & OE & EL). pose proof (dnodes_length d) as DL. pose proof (dnodes_length e) as DE. rewrite nodes_dict in LE.
  unfold readResponse. rewrite (readType_ok fuel m objs d R) by (auto; lia).
  replace (match lookup (lit "y") KStr d with Some (BStr s) => nth 0 s 0 =? 114 | _ => true end) with true
    by (destruct (lookup (lit "y") KStr d) as [[|s| |]|]; try reflexivity; rewrite (Y2 s eq_refl); reflexivity).
  cbn [obind]. rewrite (readTrans_ok fuel m objs d R) by (auto; lia). cbn [obind].
  pose proof (getObject_ok m objs d 0 (lit "r") KDict fuel R ltac:(lia)) as G. rewrite EL in G. destruct G as (i & G & RI). change TDict with (otype_of KDict). rewrite G. cbn [obind].
  destruct (readNodes_ok fuel m objs e i ns ns6 RI ltac:(lia) F4 F6 T4 T6) as (nl & N1 & N2).
  destruct (readValues_ok fuel m objs junk e i RI ltac:(rewrite nodes_dict; lia) OE V) as (vl & V1 & V2).
  pose proof (txt_ok fuel m objs e i (lit "token") RI ltac:(lia)) as TK.
  unfold readReply, readToken. destruct k; rewrite ?N1, ?V1, ?TK; cbn [obind]; rewrite ?V1; cbn [obind]; rewrite ?TK; cbn [obind]; rewrite (readId_ok fuel m objs _ e i RI) by lia; cbn [obind drId];
    rewrite (readError_ok fuel m objs d R) by (auto; lia); cbn [obind]; eexists; (split; [reflexivity|]); cbn [drTrans drResult drId drNodes drToken drValues newResponse map]; repeat split; try reflexivity; assumption.
Qed.
Print Assumptions C81_read_partial.

(** A message that says it is something else than an answer ("y" is not "r") is not read at all. *)
Theorem C81_other : forall fuel d c rest junk k s, message_ok fuel d -> lookup (lit "y") KStr d = Some (BStr s) -> s <> [] -> nth 0 s 0 <> 114 ->
  parseResponse fuel (bencode (BDict d) ++ c :: rest) (zlen (bencode (BDict d))) junk k = Val (newResponse (match k with DPing => Some (repeat 0 20) | _ => None end)).
Proof.
  intros fuel d c rest junk k s M Y N0 N. destruct (parsed fuel _ c rest d M eq_refl) as (p & P & R & K & L). unfold parseResponse. rewrite P. cbn [obind]. rewrite K.
  pose proof (dnodes_length d) as DL. unfold readResponse. rewrite (readType_ok fuel _ _ d R) by (rewrite ?Y; try congruence; lia). rewrite Y. destruct (Z.eqb_spec (nth 0 s 0) 114); [contradiction|]. reflexivity.
Qed.
Print Assumptions C81_other.

(** Finding: the code of an error as BEP 5 has it ("y" is "e", "e" a list) is never read, nor which request it answers. *)
Theorem C81_error_refuted : forall fuel t code msg c rest junk k, let d := [(lit "e", BList [BInt code; BStr msg]); text_of "t" t; text_of "y" (lit "e")] in
  message_ok fuel d -> exists r, parseResponse fuel (bencode (BDict d) ++ c :: rest) (zlen (bencode (BDict d))) junk k = Val r /\ drResult r = 0 /\ drTrans r = 0.
Proof. intros fuel t code msg c rest junk k d M. eexists. split; [apply (C81_other fuel d c rest junk k (lit "e") M); [reflexivity|discriminate|discriminate]|]. split; reflexivity. Qed.
Print Assumptions C81_error_refuted.

(** An error whose first item is a text that begins with a letter is read as the number 0. *)
Theorem C81_error_text : forall fuel x s l c rest junk k, let d := [(lit "e", BList (BStr (x :: s) :: l))] in message_ok fuel d -> 97 <= x <= 122 ->
  exists r, parseResponse fuel (bencode (BDict d) ++ c :: rest) (zlen (bencode (BDict d))) junk k = Val r /\ drResult r = 0.
Proof.
  intros fuel x s l c rest junk k d M X. destruct (parsed fuel _ c rest d M eq_refl) as (p & P & R & K & L). unfold parseResponse. rewrite P. cbn [obind]. rewrite K.
  pose proof (dnodes_length d) as DL. unfold readResponse. rewrite (readType_ok fuel _ _ d R) by (try discriminate; lia). cbn [lookup]. rewrite (readTrans_ok fuel _ _ d R) by (try discriminate; lia).
  pose proof (getObject_ok _ _ d 0 (lit "r") KDict fuel R ltac:(lia)) as G. change TDict with (otype_of KDict). cbn [d lookup] in G.
  replace (lookup (lit "r") KDict d) with (@None bval) in G by reflexivity. change (list_eqb (lit "r") (lit "e")) with false in G. cbn [andb] in G. cbn [obind].
  change (lookup (lit "y") KStr d) with (@None bval). cbn [obind]. rewrite G. cbn [obind]. unfold readError.
  pose proof (getObject_ok _ _ d 0 (lit "e") KList fuel R ltac:(lia)) as G2. change (lookup (lit "e") KList d) with (Some (BList (BStr (x :: s) :: l))) in G2. destruct G2 as (j & G2 & RJ). change TList with (otype_of KList). rewrite G2. cbn [obind].
  apply reads_list in RJ as (_ & _ & _ & RI). destruct (getFirstItem (pobjs p) j) as [i|]; [|contradiction]. cbn [ritems] in RI. destruct RI as ((_ & T & RI) & _). rewrite T.
  pose proof (item_size _ _ _ RI) as (_ & A & B & C). set (m := bencode (BDict d) ++ c :: rest) in *. set (o := nth i (pobjs p) noObj) in *.
  assert (E : memFrom m (odata o) = Some (skipn (Z.to_nat (odata o)) m)).
  { unfold memFrom. unfold zlen in B at 1. cbn [List.length] in B. destruct (Z.leb_spec 0 (odata o)); [|lia]. destruct (Z.ltb_spec (odata o) (zlen m)); [reflexivity|lia]. }
  unfold itemInt. rewrite E. unfold slice in C. destruct (skipn (Z.to_nat (odata o)) m) as [|y q]; [destruct (List.length (x :: s)); discriminate|]. cbn [List.length firstn] in C. injection C as C _. subst x.
  unfold strtol. assert (S0 : strtoz (y :: q) = Some (0, O)).
  { unfold strtoz. cbn [skipSpaces]. assert (SP : isSpace y = false) by (unfold isSpace; destruct (Z.leb_spec y 13); [lia|]; rewrite andb_false_r; apply Z.eqb_neq; lia). rewrite SP.
    destruct (Z.eqb_spec y 45); [lia|]. destruct (Z.eqb_spec y 43); [lia|]. cbn [readDigits]. assert (DG : isDigit y = false) by (unfold isDigit; destruct (Z.leb_spec y 57); [lia|apply andb_false_r]). now rewrite DG. }
  rewrite S0. cbn [obind]. eexists. split; [reflexivity|]. reflexivity.
Qed.
Print Assumptions C81_error_text.

(** Finding: a list as the first item of "e" in an answer is read as a number through a null pointer. *)
Theorem C81_null_refuted : forall fuel l l' c rest junk k, let d := [(lit "e", BList (BList l :: l'))] in message_ok fuel d ->
  parseResponse fuel (bencode (BDict d) ++ c :: rest) (zlen (bencode (BDict d))) junk k = Undef.
Proof.
  intros fuel l l' c rest junk k d M. destruct (parsed fuel _ c rest d M eq_refl) as (p & P & R & K & L). unfold parseResponse. rewrite P. cbn [obind]. rewrite K.
  pose proof (dnodes_length d) as DL. unfold readResponse. rewrite (readType_ok fuel _ _ d R) by (try discriminate; lia). cbn [lookup]. rewrite (readTrans_ok fuel _ _ d R) by (try discriminate; lia).
  pose proof (getObject_ok _ _ d 0 (lit "r") KDict fuel R ltac:(lia)) as G. change TDict with (otype_of KDict). cbn [d lookup] in G.
  replace (lookup (lit "r") KDict d) with (@None bval) in G by reflexivity. change (list_eqb (lit "r") (lit "e")) with false in G. cbn [andb] in G. cbn [obind].
  change (lookup (lit "y") KStr d) with (@None bval). cbn [obind]. rewrite G. cbn [obind]. unfold readError.
  pose proof (getObject_ok _ _ d 0 (lit "e") KList fuel R ltac:(lia)) as G2. change (lookup (lit "e") KList d) with (Some (BList (BList l :: l'))) in G2. destruct G2 as (j & G2 & RJ). change TList with (otype_of KList). rewrite G2. cbn [obind].
  apply reads_list in RJ as (_ & _ & _ & RI). destruct (getFirstItem (pobjs p) j) as [i|]; [|contradiction]. cbn [ritems] in RI. destruct RI as (RI & _). apply reads_list in RI as (_ & T & _). now rewrite T.
Qed.
Print Assumptions C81_null_refuted.

(** Finding: an answer without an id: the id compared with the one asked for was never written (Query.cpp:236, 389). *)
Theorem C81_no_id_refuted : forall fuel tr c rest junk k, k <> DPing -> let d := [text_of "t" (le 2 tr); text_of "y" (lit "r"); (lit "r", BDict [])] in
  message_ok fuel d -> exists r, parseResponse fuel (bencode (BDict d) ++ c :: rest) (zlen (bencode (BDict d))) junk k = Val r /\ drTrans r = unle (le 2 tr) /\ drId r = None.
Proof.
  intros fuel tr c rest junk k NK d M.
  destruct (C81_read_partial fuel d [] c rest junk k [] [] M eq_refl) as (r & R1 & R2 & _ & R3 & _); try apply Forall_nil; try reflexivity; try discriminate.
  - intros s E. injection E as <-. reflexivity.
  - exists r. split; [exact R1|]. split; [|rewrite R3; destruct k; [reflexivity|reflexivity|congruence]]. rewrite R2. change (textOf (lit "t") d) with (le 2 tr).
    replace (firstn 2 (le 2 tr)) with (le 2 tr); [reflexivity|]. rewrite <- (le_length 2 tr) at 2. symmetry. apply firstn_all.
Qed.
Print Assumptions C81_no_id_refuted.

Definition nodeMsg (s : list Z) : list Z := bencode (BDict [(lit "r", BDict [(lit "nodes", BStr s)])]).
Definition valueMsg (s : list Z) : list Z := bencode (BDict [(lit "r", BDict [(lit "values", BList [BStr s])])]).

(** Finding: a node or peer cut short is read on past the end of the message: what is read depends on what lies behind it,
    and nothing says what happens if nothing does. *)
Theorem C81_beyond_refuted :
  (forall k, k <> DPing -> parseResponse 50 (nodeMsg [1] ++ repeat 2 40) (zlen (nodeMsg [1])) [] k <> parseResponse 50 (nodeMsg [1] ++ repeat 3 40) (zlen (nodeMsg [1])) [] k) /\
  parseResponse 50 (valueMsg [1] ++ repeat 2 40) (zlen (valueMsg [1])) [] DGetPeers <> parseResponse 50 (valueMsg [1] ++ repeat 3 40) (zlen (valueMsg [1])) [] DGetPeers /\
  parseResponse 50 (nodeMsg [1] ++ [0]) (zlen (nodeMsg [1])) [] DFindNode = Undef /\
  parseResponse 50 (valueMsg [1] ++ [0]) (zlen (valueMsg [1])) [] DGetPeers = Undef.
Proof. split; [intros [| |] N; [vm_compute; discriminate|vm_compute; discriminate|congruence]|]. split; [vm_compute; discriminate|]. split; reflexivity. Qed.
Print Assumptions C81_beyond_refuted.

(** Finding: a number of one byte is read together with the byte after it. *)
Theorem C81_number_refuted : forall x, In x [0; 1; 97; 255] ->
  let d := [text_of "t" [x]] in exists r, parseResponse 50 (bencode (BDict d) ++ [0]) (zlen (bencode (BDict d))) [] DPing = Val r /\ drTrans r = x + 256 * 101.
Proof. intros x [<-|[<-|[<-|[<-|[]]]]]; eexists; (split; [vm_compute; reflexivity|reflexivity]). Qed.
Print Assumptions C81_number_refuted.

(** An answer to a request for peers with two nodes (one of them twice), an IPv6 node and two peers. *)
Example C81_meets :
  let a : contact := (repeat 7 20, [10; 0; 0; 1], 6881) in let b : contact := (repeat 8 20, [10; 0; 0; 2], 80) in let x : contact := (repeat 9 20, repeat 1 16, 443) in
  let e := [text_of "id" (repeat 5 20); text_of "nodes" (concat (map wire [a; b; a])); text_of "nodes6" (wire x); text_of "token" [1; 2; 3; 4];
            (lit "values", BList [BStr [127; 0; 0; 1; 26; 225]; BStr (repeat 2 16 ++ [1; 0])])] in
  let d := [(lit "r", BDict e); text_of "t" [44; 1]; text_of "y" (lit "r")] in
  message_ok 100 d /\ dictOf (lit "r") d = Some e /\
  exists r, parseResponse 100 (bencode (BDict d) ++ [0]) (zlen (bencode (BDict d))) (repeat 9 16) DGetPeers = Val r /\ drTrans r = 300 /\ drId r = Some (repeat 5 20) /\
    map node_view (drNodes r) = [(false, a); (false, b); (true, x)] /\ drToken r = [1; 2; 3; 4] /\
    map addr_view (drValues r) = [(false, ([127; 0; 0; 1], 6881)); (true, (repeat 2 16, 256))].
Proof.
  intros a b x e d. split; [|split; [reflexivity|]].
  - assert (B : forall l, bytes_okb l = true -> bytes_ok l) by (intros l; apply bytes_okb_spec).
    split; [|split; [reflexivity|split; [reflexivity|vm_compute; lia]]]. cbn [bval_ok d e map fold_right fst snd text_of]. repeat (split; [try (apply B; reflexivity)|]); try (apply B; reflexivity); try exact I; repeat (split; [try (apply B; reflexivity)|]); try (apply B; reflexivity); try exact I.
  - eexists. split; [vm_compute; reflexivity|]. repeat (split; [vm_compute; reflexivity|]). vm_compute; reflexivity.
Qed.
