(** C83: one client asks another. [own] asks with the number [tr]; [other] answers with what it has in [re]. *)
From Verif Require Import Base BaseLemmas Dec DecLemmas PacketModel PacketProofs AddrModel BencodeModel BencodeSpec BencodeProofs StateModel StateProps TfSpec TfProofs TfReads NodeModel TableModel.
From Verif Require ResponderModel ResponderSpec ResponderProofs ResponderProps.
From Verif Require Import BencodeSpec DhtMsgModel DhtMsgSpec DhtMsgProofs DhtMsgProps DhtAnswerProps.
From Coq Require Import String. From Coq Require Import List. Import ListNotations.
Local Close Scope string_scope.

Definition stored_peers_ok (maxResponse : Z) (re : responder) (v6 : bool) : Prop :=
  forall h, Forall (fun a => List.length (AddrModel.addrBytes a) = 16%nat /\ bytes_ok (AddrModel.addrBytes a) /\ 0 <= AddrModel.port a < 65536)
    (ResponderModel.answerPeers maxResponse (reValues re) h v6).

Section Exchange.
Variables (fuel : nat) (own other junk junk2 rest rest2 : list Z) (c c2 maxResponse maxStored now tr : Z) (s : source) (re : responder).
Hypothesis fuel_ok : (40 <= fuel)%nat.
Hypothesis own_ok : id20 own.
Hypothesis other_ok : id20 other.
Hypothesis tr_ok : 0 <= tr < 65536.
Hypothesis stored_ok : stored_peers_ok maxResponse re (srcV6 s).

Lemma lengths_ok : forall h, Forall (fun a => List.length (AddrModel.addrBytes a) = 16%nat) (ResponderModel.answerPeers maxResponse (reValues re) h (srcV6 s)).
Proof using stored_ok. intros h. eapply Forall_impl; [|apply stored_ok]. intros a (H & _); exact H. Qed.

(** what [other] answers to the bytes of a request *)
Lemma ask_ok bytes d : bytes = bencode (BDict d) -> message_ok fuel d ->
  (forall a, dictOf (lit "a") d = Some a -> numberOf (lit "port") a < 9223372036854775808 /\ numberOf (lit "implied_port") a < 9223372036854775808) ->
  handlePacket fuel (bytes ++ c :: rest) (zlen bytes) junk other maxResponse maxStored now s re =
  Val (option_map (fun p => (bencode (fst p), snd p)) (answer other junk maxResponse maxStored now s re d)).
Proof using stored_ok other_ok. intros -> M N. apply C82_answer; [exact M|apply other_ok|exact lengths_ok|exact N]. Qed.

Lemma reply_read body k ns : message_ok fuel (replies other (le 2 tr) body) ->
  Forall (contact_ok false) ns -> textOf (lit "nodes") body = concat (map wire ns) -> lookup (lit "nodes6") KStr body = None -> lookup (lit "id") KStr body = None ->
  (match listOf (lit "values") body with Some l => Forall peer_ok l | None => True end) ->
  exists r, parseResponse fuel (bencode (reply other (le 2 tr) body) ++ c2 :: rest2) (zlen (bencode (reply other (le 2 tr) body))) junk2 k = Val r /\
    drTrans r = tr /\ drResult r = 0 /\ drId r = Some other /\
    map node_view (drNodes r) = (match k with DPing => [] | _ => firsts [] (map (pair false) ns) end) /\
    drToken r = (match k with DGetPeers => textOf (lit "token") body | _ => [] end) /\
    map addr_view (drValues r) = (match k with DGetPeers => map peer_of (match listOf (lit "values") body with Some l => texts l | None => [] end) | _ => [] end).
Proof using other_ok tr_ok.
  intros M F N N6 NI V. set (e := text_of "id" other :: body).
  assert (HD : forall k0 t, list_eqb k0 (lit "id") = false -> lookup k0 t e = lookup k0 t body) by (intros k0 t Hk; unfold e, text_of; cbn [lookup]; rewrite Hk; reflexivity).
  assert (EN : textOf (lit "nodes") e = concat (map wire ns)) by (rewrite <- N; unfold textOf; rewrite HD by reflexivity; reflexivity).
  assert (EN6 : textOf (lit "nodes6") e = concat (map wire [])) by (unfold textOf; rewrite HD by reflexivity; now rewrite N6).
  assert (EV : listOf (lit "values") e = listOf (lit "values") body) by (unfold listOf; rewrite HD by reflexivity; reflexivity).
  assert (ET : textOf (lit "token") e = textOf (lit "token") body) by (unfold textOf; rewrite HD by reflexivity; reflexivity).
  assert (EI : textOf (lit "id") e = other) by reflexivity.
  destruct (C81_read_partial fuel (replies other (le 2 tr) body) e c2 rest2 junk2 k ns [] M eq_refl) as (r & R1 & R2 & R3 & R4 & R5 & R6 & R7); try assumption.
  - discriminate.
  - intros x E. injection E as <-. reflexivity.
  - change (textOf (lit "t") (replies other (le 2 tr) body)) with (le 2 tr). rewrite le_length. discriminate.
  - exact I.
  - apply Forall_nil.
  - exists r. split; [exact R1|]. rewrite (read_trans tr body other tr_ok) in R2. rewrite EI in R4. rewrite (proj1 other_ok) in R4. rewrite ET in R6. rewrite EV in R7.
    cbn [map app] in R5. rewrite app_nil_r in R5. split; [exact R2|]. split; [exact R3|]. split; [exact R4|]. auto.
Qed.

Lemma answer_request name args extra : extra = [] \/ extra = [text_of "v" (lit "mt09")] -> textOf (lit "id") args = own ->
  answer other junk maxResponse maxStored now s re (requests name args extra tr) =
  match method other junk maxResponse maxStored now s re (lit name) args with Some (body, vs) => Some (reply other (le 2 tr) body, after other junk now s re own vs) | None => None end.
Proof using own_ok.
  intros X E. unfold answer.
  assert (Y : lookup (lit "y") KStr (requests name args extra tr) = Some (BStr (lit "q"))) by (destruct X as [-> | ->]; reflexivity).
  assert (T : lookup (lit "t") KStr (requests name args extra tr) = Some (BStr (le 2 tr))) by (destruct X as [-> | ->]; reflexivity).
  assert (Q : lookup (lit "q") KStr (requests name args extra tr) = Some (BStr (lit name))) by (destruct X as [-> | ->]; reflexivity).
  assert (A : dictOf (lit "a") (requests name args extra tr) = Some args) by (destruct X as [-> | ->]; reflexivity).
  rewrite Y, T, Q, A. unfold has20 at 1. rewrite E, (proj1 own_ok). reflexivity.
Qed.

(** A ping is answered with the number and the id. *)
Theorem C83_ping :
  exists bytes re' r, handlePacket fuel (pingRequest own tr ++ c :: rest) (zlen (pingRequest own tr)) junk other maxResponse maxStored now s re = Val (Some (bytes, re')) /\
    parseResponse fuel (bytes ++ c2 :: rest2) (zlen bytes) junk2 DPing = Val r /\ drTrans r = tr /\ drId r = Some other /\ drResult r = 0 /\
    reValues re' = reValues re /\ reTable re' = nodeResponded other (reTable re) (sender junk s own) now.
Proof using fuel_ok own_ok other_ok tr_ok stored_ok.
  rewrite (ask_ok _ (requests "ping" [text_of "id" own] [] tr)).
  - rewrite answer_request; [|now left|reflexivity]. change (method other junk maxResponse maxStored now s re (lit "ping") [text_of "id" own]) with (Some (@nil (list Z * bval), reValues re)). cbn [option_map fst snd].
    destruct (reply_read [] DPing []) as (r & R1 & R2 & R3 & R4 & _); try apply Forall_nil; try reflexivity.
    + unfold message_ok. rewrite replies_ok. split; [|split; [reflexivity|split; [|cbn; lia]]].
      * cbn [bval_ok reply text_of map fold_right fst snd]. repeat split; try (apply lit_ok; reflexivity); try apply le_bytes. apply other_ok.
      * unfold reply, text_of. cbn [bencode map concat fst snd]. rewrite !zlen_app. rewrite (zlen_20 other (proj1 other_ok)). change (zlen (le 2 tr)) with 2. reflexivity.
    + exists (bencode (reply other (le 2 tr) [])), (after other junk now s re own (reValues re)), r. split; [reflexivity|]. split; [exact R1|]. split; [exact R2|]. split; [exact R4|]. split; [exact R3|]. split; reflexivity.
  - rewrite requests_ok. apply (C80_requests own own true tr [] 0 0); apply own_ok.
  - now apply ping_ok.
  - intros a E. injection E as <-. now apply no_numbers.
Qed.

(** nodes the table of [other] holds are on the wire as they are *)
Definition known_ok (n : nodeInfo) : Prop := List.length (id n) = 20%nat /\ bytes_ok (id n) /\ List.length (addrBytes n) = 16%nat /\ bytes_ok (addrBytes n) /\ 0 <= port n < 65536.

Lemma contact_known n : known_ok n -> contact_ok (ipv6 n) (contact_of n).
Proof using. intros (H1 & _ & H2 & _ & H3). unfold contact_ok, contact_of. cbn [fst snd]. rewrite !firstn_length, H1, H2. split; [reflexivity|]. split; [destruct (ipv6 n); reflexivity|exact H3]. Qed.

Lemma nodes_v4 both l : Forall (fun n => ipv6 n = false) l ->
  textOf (lit "nodes") (nodes_part (true, both) l) = concat (map wire (map contact_of l)).
Proof using.
  intros F. destruct l as [|n l]; [reflexivity|]. set (f := n :: l) in *. change (nodes_part (true, both) f) with [text_of "nodes" (wires (filter (fun n => negb (ipv6 n) && true) f) ++ wires (filter (fun n => ipv6 n && both) f))].
  change (textOf (lit "nodes") [text_of "nodes" ?x]) with x. clearbody f. clear n l.
  assert (E1 : filter (fun n => negb (ipv6 n) && true) f = f) by (induction F as [|n f F1 F IH]; [reflexivity|]; cbn [filter]; rewrite F1; cbn [negb andb]; now rewrite IH).
  assert (E2 : filter (fun n => ipv6 n && both) f = []) by (clear E1; induction F as [|n f F1 F IH]; [reflexivity|]; cbn [filter]; rewrite F1; cbn [andb]; exact IH).
  rewrite E1, E2. unfold wires. rewrite map_map. cbn [map concat]. apply app_nil_r.
Qed.

Lemma nodes_contacts l : Forall known_ok l -> Forall (fun n => ipv6 n = false) l -> Forall (contact_ok false) (map contact_of l).
Proof using. intros K F. induction K as [|n l K1 K IH]; [apply Forall_nil|]. inversion F as [|? ? F1 F2]; subst. cbn [map]. apply Forall_cons; [rewrite <- F1; now apply contact_known|now apply IH]. Qed.

(** The nodes closest to an id, as [other] knows them (C32), are what the one who asked gets. Missing: if one of them has an
    IPv6 address, see below. *)
Theorem C83_find_node_partial : forall target, id20 target ->
  let found := getClosestNodes other (reTable re) target in
  Forall known_ok found -> Forall (fun n => ipv6 n = false) found ->
  message_ok fuel (replies other (le 2 tr) (nodes_part (true, true) found)) ->
  exists bytes re' r, handlePacket fuel (findNodeRequest own target true tr ++ c :: rest) (zlen (findNodeRequest own target true tr)) junk other maxResponse maxStored now s re = Val (Some (bytes, re')) /\
    parseResponse fuel (bytes ++ c2 :: rest2) (zlen bytes) junk2 DFindNode = Val r /\ drTrans r = tr /\ drId r = Some other /\ drResult r = 0 /\
    map node_view (drNodes r) = firsts [] (map (fun n => (false, contact_of n)) found).
Proof using fuel_ok own_ok other_ok tr_ok stored_ok.
  intros target HT found K F M. set (args := [text_of "id" own; text_of "target" target] ++ wants true). rewrite (ask_ok _ (requests "find_node" args [] tr)).
  - rewrite answer_request; [|now left|reflexivity].
    assert (EM : method other junk maxResponse maxStored now s re (lit "find_node") args = Some (nodes_part (true, true) found, reValues re)).
    { unfold method. rewrite list_eqb_refl. unfold has20. change (textOf (lit "target") args) with target. rewrite (proj1 HT). unfold wanted.
      change (listOf (lit "want") args) with (Some [BStr (lit "n4"); BStr (lit "n6")]). cbn [leading Nat.eqb].
      replace (existsb (list_eqb (lit "n4")) [lit "n4"; lit "n6"]) with true by reflexivity. replace (existsb (list_eqb (lit "n6")) [lit "n4"; lit "n6"]) with true by reflexivity. rewrite !orb_true_r. reflexivity. }
    rewrite EM. cbn [option_map fst snd].
    destruct (reply_read (nodes_part (true, true) found) DFindNode (map contact_of found) M) as (r & R1 & R2 & R3 & R4 & R5 & _).
    + now apply nodes_contacts.
    + now apply nodes_v4.
    + destruct found; reflexivity.
    + destruct found; reflexivity.
    + destruct found; exact I.
    + eexists. eexists. exists r. split; [reflexivity|]. split; [exact R1|]. split; [exact R2|]. split; [exact R4|]. split; [exact R3|]. rewrite R5, map_map. reflexivity.
  - rewrite requests_ok. apply (C80_requests own target true tr [] 0 0); [apply own_ok|apply HT].
  - now apply find_ok.
  - intros a E. injection E as <-. now apply no_numbers.
Qed.

Lemma peer_of_text a : List.length (AddrModel.addrBytes a) = 16%nat -> 0 <= AddrModel.port a < 65536 ->
  peer_ok (BStr (peer_text a)) /\ peer_of (peer_text a) = addr_view a.
Proof using.
  intros L P. clear - L P. unfold peer_ok, peer_of, peer_text, addr_view.
  assert (E : List.length (firstn (ip_length (AddrModel.ipv6 a)) (AddrModel.addrBytes a)) = ip_length (AddrModel.ipv6 a)) by (rewrite firstn_length, L; destruct (AddrModel.ipv6 a); reflexivity).
  rewrite app_length, E, be_length. split; [destruct (AddrModel.ipv6 a); cbn; auto|].
  replace (ip_length (AddrModel.ipv6 a) + 2 - 2)%nat with (ip_length (AddrModel.ipv6 a)) by lia. rewrite firstn_app_len, skipn_app_len by lia. rewrite unbe_be by (cbn; lia). destruct (AddrModel.ipv6 a); reflexivity.
Qed.

(** A request for peers brings the nodes, the stored peers of the family of the one who asked (C35) and the token for its
    address (C34). Missing: IPv6 nodes, as above. *)
Theorem C83_get_peers_partial : forall hash, id20 hash ->
  let found := getClosestNodes other (reTable re) hash in
  let peers := ResponderModel.answerPeers maxResponse (reValues re) hash (srcV6 s) in
  let token := le 4 (ResponderModel.tokenFor (reSecrets re) (srcText s)) in
  Forall known_ok found -> Forall (fun n => ipv6 n = false) found ->
  message_ok fuel (replies other (le 2 tr) (nodes_part (true, true) found ++ values_part peers ++ [text_of "token" token])) ->
  exists bytes re' r, handlePacket fuel (getPeersRequest own hash true tr ++ c :: rest) (zlen (getPeersRequest own hash true tr)) junk other maxResponse maxStored now s re = Val (Some (bytes, re')) /\
    parseResponse fuel (bytes ++ c2 :: rest2) (zlen bytes) junk2 DGetPeers = Val r /\ drTrans r = tr /\ drId r = Some other /\ drResult r = 0 /\
    map node_view (drNodes r) = firsts [] (map (fun n => (false, contact_of n)) found) /\
    map addr_view (drValues r) = map addr_view peers /\ drToken r = token /\
    reSecrets re' = reSecrets re /\ reValues re' = reValues re.
Proof using fuel_ok own_ok other_ok tr_ok stored_ok.
  intros hash HH found peers token K F M. set (args := [text_of "id" own; text_of "info_hash" hash] ++ wants true). rewrite (ask_ok _ (requests "get_peers" args [text_of "v" (lit "mt09")] tr)).
  - rewrite answer_request; [|now right|reflexivity]. set (body := nodes_part (true, true) found ++ values_part peers ++ [text_of "token" token]) in *.
    assert (EM : method other junk maxResponse maxStored now s re (lit "get_peers") args = Some (body, reValues re)).
    { unfold method. rewrite list_eqb_refl. replace (list_eqb (lit "find_node") (lit "get_peers")) with false by reflexivity. unfold has20. change (textOf (lit "info_hash") args) with hash. rewrite (proj1 HH). unfold wanted.
      change (listOf (lit "want") args) with (Some [BStr (lit "n4"); BStr (lit "n6")]). cbn [leading Nat.eqb].
      replace (existsb (list_eqb (lit "n4")) [lit "n4"; lit "n6"]) with true by reflexivity. replace (existsb (list_eqb (lit "n6")) [lit "n4"; lit "n6"]) with true by reflexivity. rewrite !orb_true_r. reflexivity. }
    rewrite EM. cbn [option_map fst snd].
    assert (EV : listOf (lit "values") body = match peers with [] => None | _ => Some (map (fun a => BStr (peer_text a)) peers) end) by (unfold body; destruct found, peers; reflexivity).
    pose proof (stored_ok hash) as SO. fold peers in SO.
    destruct (reply_read body DGetPeers (map contact_of found) M) as (r & R1 & R2 & R3 & R4 & R5 & R6 & R7).
    + now apply nodes_contacts.
    + rewrite <- (nodes_v4 true found F). unfold body. destruct found, peers; reflexivity.
    + unfold body. destruct found, peers; reflexivity.
    + unfold body. destruct found, peers; reflexivity.
    + rewrite EV. destruct peers as [|p ps] eqn:EP; [exact I|]. rewrite <- EP in *. apply Forall_forall. intros v Hv. apply in_map_iff in Hv as (a & <- & Ia). rewrite Forall_forall in SO. destruct (SO a Ia) as (S1 & _ & S3). now apply peer_of_text.
    + eexists. eexists. exists r. split; [reflexivity|]. split; [exact R1|]. split; [exact R2|]. split; [exact R4|]. split; [exact R3|]. split; [rewrite R5, map_map; reflexivity|].
      split; [|split; [rewrite R6; unfold body; destruct found, peers; reflexivity|split; reflexivity]]. rewrite R7, EV.
      replace (match match peers with [] => None | _ => Some (map (fun a => BStr (peer_text a)) peers) end with Some l => texts l | None => [] end) with (map peer_text peers)
        by (destruct peers as [|p ps]; [reflexivity|]; generalize (p :: ps); intros q; unfold texts; rewrite map_map; induction q as [|x q IH]; [reflexivity|]; cbn [map concat app]; now rewrite <- IH).
      rewrite map_map. apply map_ext_in. intros a Ia. rewrite Forall_forall in SO. destruct (SO a Ia) as (S1 & _ & S3). now apply peer_of_text.
  - rewrite requests_ok. apply (C80_requests own hash true tr [] 0 0); [apply own_ok|apply HH].
  - now apply get_ok.
  - intros a E. injection E as <-. now apply no_numbers.
Qed.

(** Announcing with a token that is right stores the peer: at the port the packet came from if the client uses one port for TCP
    and UDP, at the port named otherwise. *)
Theorem C83_announce : forall hash token tcpPort udpPort, id20 hash -> List.length token = 4%nat -> bytes_ok token -> 0 < udpPort < 65536 ->
  ResponderModel.isValidToken (reSecrets re) (unle token) (srcText s) = true ->
  exists bytes re', handlePacket fuel (announceRequest own hash token tcpPort udpPort tr ++ c :: rest) (zlen (announceRequest own hash token tcpPort udpPort tr)) junk other maxResponse maxStored now s re = Val (Some (bytes, re')) /\
    reValues re' = ResponderModel.announcedPeer maxStored (reValues re) hash (setAddr junk (srcBytes s) (if tcpPort =? udpPort then srcPort s else udpPort) (srcV6 s)) now.
Proof using fuel_ok own_ok other_ok stored_ok.
  intros hash token tcpPort udpPort HH LT BT P V. rewrite (ask_ok _ (requests "announce_peer" (announce_args own hash token tcpPort udpPort) [] tr)).
  - rewrite answer_request; [|now left|unfold announce_args; destruct (tcpPort =? udpPort); reflexivity].
    assert (EM : method other junk maxResponse maxStored now s re (lit "announce_peer") (announce_args own hash token tcpPort udpPort) =
      Some ([], ResponderModel.announcedPeer maxStored (reValues re) hash (setAddr junk (srcBytes s) (if tcpPort =? udpPort then srcPort s else udpPort) (srcV6 s)) now)).
    { unfold method. rewrite list_eqb_refl. replace (list_eqb (lit "find_node") (lit "announce_peer")) with false by reflexivity. replace (list_eqb (lit "get_peers") (lit "announce_peer")) with false by reflexivity.
      assert (E1 : textOf (lit "info_hash") (announce_args own hash token tcpPort udpPort) = hash) by (unfold announce_args; destruct (tcpPort =? udpPort); reflexivity).
      assert (E2 : textOf (lit "token") (announce_args own hash token tcpPort udpPort) = token) by (unfold announce_args; destruct (tcpPort =? udpPort); reflexivity).
      assert (E3 : port_of s (announce_args own hash token tcpPort udpPort) = if tcpPort =? udpPort then srcPort s else udpPort).
      { unfold port_of. assert (N : numberOf (lit "port") (announce_args own hash token tcpPort udpPort) = udpPort) by (unfold announce_args; destruct (tcpPort =? udpPort); reflexivity). rewrite N.
        assert (N2 : numberOf (lit "implied_port") (announce_args own hash token tcpPort udpPort) = if tcpPort =? udpPort then 1 else 0) by (unfold announce_args; destruct (tcpPort =? udpPort); reflexivity). rewrite N2.
        assert (I : i32 udpPort = udpPort) by (unfold i32; lia). rewrite I. destruct (tcpPort =? udpPort); [reflexivity|]. change (i32 0 =? 1) with false. cbn [orb]. destruct (Z.eqb_spec udpPort 0); [lia|]. unfold u16. apply Z.mod_small. lia. }
      unfold has20. rewrite E1, E2, E3, (proj1 HH), LT, V. reflexivity. }
    rewrite EM. eexists. eexists. split; reflexivity.
  - rewrite requests_ok. apply (C80_requests own hash true tr token tcpPort udpPort); [apply own_ok|apply HH].
  - apply announce_ok; try assumption; lia.
  - intros a E. injection E as <-. unfold announce_args. destruct (tcpPort =? udpPort);
    match goal with |- ?x < _ /\ ?y < _ => let x' := eval vm_compute in x in let y' := eval vm_compute in y in change x with x'; change y with y' end; lia.
Qed.

End Exchange.
Print Assumptions C83_ping.
Print Assumptions C83_find_node_partial.
Print Assumptions C83_get_peers_partial.
Print Assumptions C83_announce.

(** The token given to an address is accepted from it with an announce, also after the secret was changed once. *)
Theorem C83_token : forall s text r, 0 <= ResponderModel.secret0 s < 2 ^ 32 ->
  let token := le 4 (ResponderModel.tokenFor s text) in
  List.length token = 4%nat /\ bytes_ok token /\ ResponderModel.isValidToken s (unle token) text = true /\ ResponderModel.isValidToken (ResponderModel.rotate s r) (unle token) text = true.
Proof.
  intros s text r H token. assert (R : forall l x, 0 <= x < 2 ^ 32 -> 0 <= fold_left (fun out c => u32 (out + c)) l x < 2 ^ 32).
  { induction l as [|y l IH]; intros x Hx; cbn [fold_left]; [exact Hx|]. apply IH. unfold u32. apply Z.mod_pos_bound. reflexivity. }
  assert (U : unle token = ResponderModel.tokenFor s text) by (unfold token; apply unle_le; apply (R text (ResponderModel.secret0 s) H)).
  rewrite U. split; [apply le_length|]. split; [apply le_bytes|]. apply ResponderProps.C34_accepted.
Qed.
Print Assumptions C83_token.

Lemma filter_short {A} (f : A -> bool) l : (List.length (filter f l) <= List.length l)%nat.
Proof. induction l as [|x l IH]; [apply le_n|]. cbn [filter]. destruct (f x); cbn [List.length]; lia. Qed.

Lemma replace_in v l l' : ResponderModel.replaceValue v l = Some l' -> In v l' /\ List.length l' = List.length l.
Proof.
  revert l'. induction l as [|x l IH]; intros l'; [discriminate|]. cbn [ResponderModel.replaceValue]. destruct (addrEq _ _); [intros E; injection E as <-; split; [now left|reflexivity]|].
  destruct (ResponderModel.replaceValue v l) as [k|]; [|discriminate]. cbn [option_map]. intros E. injection E as <-. destruct (IH k eq_refl) as [I1 I2]. split; [now right|]. cbn [List.length]. now rewrite I2.
Qed.

(** Who asks for the peers of a torrent after a peer announced itself there gets that peer, if there was room for it. *)
Theorem C83_announced_found : forall maxResponse maxStored m hash p now, 0 <= maxResponse < 2 ^ 32 ->
  let limit := if AddrModel.ipv6 p then maxResponse / 3 else maxResponse in
  zlen (ResponderSpec.stored m hash) < maxStored -> zlen (ResponderSpec.stored m hash) < limit ->
  In p (ResponderModel.answerPeers maxResponse (ResponderModel.announcedPeer maxStored m hash p now) hash (AddrModel.ipv6 p)).
Proof.
  intros maxResponse maxStored m hash p now MR limit R1 R2. rewrite ResponderProps.C35_answer by assumption. fold limit. rewrite ResponderProofs.announce_stored, list_eqb_refl.
  set (v := {| ResponderModel.vaddr := p; ResponderModel.timestamp := now |}).
  assert (G : forall l, In v l -> zlen l <= limit -> In p (firstn (Z.to_nat limit) (map ResponderModel.vaddr (filter (fun v => Bool.eqb (AddrModel.ipv6 (ResponderModel.vaddr v)) (AddrModel.ipv6 p)) l)))).
  { intros l I L. rewrite firstn_all2.
    - apply in_map_iff. exists v. split; [reflexivity|]. apply filter_In. split; [exact I|]. cbn. apply Bool.eqb_reflx.
    - rewrite map_length. pose proof (filter_short (fun v => Bool.eqb (AddrModel.ipv6 (ResponderModel.vaddr v)) (AddrModel.ipv6 p)) l). unfold zlen in *. lia. }
  destruct (ResponderModel.replaceValue v (ResponderSpec.stored m hash)) as [l|] eqn:E.
  - apply replace_in in E as [I L]. apply G; [exact I|]. unfold zlen in *. lia.
  - destruct (Z.ltb_spec (zlen (ResponderSpec.stored m hash)) maxStored); [|lia]. apply G; [apply in_or_app; right; now left|]. rewrite zlen_app. change (zlen [v]) with 1. lia.
Qed.
Print Assumptions C83_announced_found.

(** * Examples *)

Definition exOther : list Z := repeat 2 20.
Definition exSrc : source := {| srcBytes := [10; 0; 0; 9]; srcText := lit "10.0.0.9"; srcPort := 6881; srcV6 := false |}.
Definition exNode (b : Z) (v6 : bool) : nodeInfo := {| id := repeat b 20; addrBytes := if v6 then repeat 1 16 else [10; 0; 0; b] ++ repeat 0 12; port := 443; ipv6 := v6 |}.
Definition exRe (l : list nodeInfo) : responder :=
  {| reTable := fold_left (fun t n => nodeResponded exOther t n 5) l emptyTable; reSecrets := ResponderModel.startSecrets 77; reValues := [] |}.

(** Finding: a node with an IPv6 address in the table of [other]: the answer is read as if it were an IPv4 node and another
    one behind the end of the message. *)
Theorem C83_find_node_refuted :
  let re := exRe [exNode 9 true] in let req := findNodeRequest (repeat 1 20) (repeat 7 20) true 300 in
  getClosestNodes exOther (reTable re) (repeat 7 20) = [exNode 9 true] /\
  exists bytes re', handlePacket 60 (req ++ [0]) (zlen req) (repeat 0 16) exOther 50 50 5 exSrc re = Val (Some (bytes, re')) /\
    parseResponse 60 (bytes ++ [0]) (zlen bytes) (repeat 0 16) DFindNode = Undef /\
    exists r, parseResponse 60 (bytes ++ repeat 0 40) (zlen bytes) (repeat 0 16) DFindNode = Val r /\ List.length (drNodes r) = 2%nat /\ Forall (fun n => ipv6 n = false) (drNodes r).
Proof.
  split; [vm_compute; reflexivity|]. eexists. eexists. split; [vm_compute; reflexivity|]. split; [vm_compute; reflexivity|]. eexists. split; [vm_compute; reflexivity|].
  split; [reflexivity|]. cbn [drNodes]. repeat (apply Forall_cons; [reflexivity|]). apply Forall_nil.
Qed.
Print Assumptions C83_find_node_refuted.

(** Finding: who only asked counts as a node that responded, under the id it claims, and is handed on to others. *)
Theorem C83_unproven_refuted :
  let re := exRe [] in let req := pingRequest (repeat 1 20) 300 in
  exists bytes re', handlePacket 60 (req ++ [0]) (zlen req) (repeat 0 16) exOther 50 50 5 exSrc re = Val (Some (bytes, re')) /\
    map node_view (getClosestNodes exOther (reTable re') (repeat 1 20)) = [(false, (repeat 1 20, [10; 0; 0; 9], 6881))].
Proof. eexists. eexists. split; [vm_compute; reflexivity|]. vm_compute. reflexivity. Qed.
Print Assumptions C83_unproven_refuted.

(** Two nodes known to [other], asked for nodes and for peers: the conditions of the theorems hold. *)
Example C83_meets :
  let re := exRe [exNode 9 false; exNode 10 false] in let found := getClosestNodes exOther (reTable re) (repeat 9 20) in
  found = [exNode 9 false; exNode 10 false] /\ Forall known_ok found /\ Forall (fun n => ipv6 n = false) found /\
  message_ok 60 (replies exOther (le 2 300) (nodes_part (true, true) found)) /\ stored_peers_ok 50 re false /\ id20 exOther.
Proof.
  assert (B : forall l, bytes_okb l = true -> bytes_ok l) by (intros l; apply bytes_okb_spec).
  cbn zeta. match goal with |- ?f = ?x /\ _ => assert (E : f = x) by (vm_compute; reflexivity); rewrite E end. split; [reflexivity|].
  split; [repeat (apply Forall_cons; [split; [reflexivity|split; [apply B; reflexivity|split; [reflexivity|split; [apply B; reflexivity|cbn; lia]]]]|]); apply Forall_nil|].
  split; [repeat (apply Forall_cons; [reflexivity|]); apply Forall_nil|]. split; [|split; [intros h; apply Forall_nil|split; [reflexivity|apply B; reflexivity]]].
  split; [|split; [reflexivity|split; [vm_compute; reflexivity|vm_compute; lia]]].
  rewrite replies_ok. cbn [bval_ok reply text_of nodes_part map fold_right fst snd]. repeat split; apply B; vm_compute; reflexivity.
Qed.

(** An announce of the torrent 7..7 to a client with no peers: accepted, and the next one who asks gets the peer. *)
Example C82_meets :
  let re := exRe [] in let token := le 4 (ResponderModel.tokenFor (reSecrets re) (srcText exSrc)) in
  message_ok 60 (requests "announce_peer" (announce_args (repeat 1 20) (repeat 7 20) token 6881 6881) [] 300) /\ token <> [0; 0; 0; 0] /\
  exists re', answer exOther (repeat 0 16) 50 50 5 exSrc re (requests "announce_peer" (announce_args (repeat 1 20) (repeat 7 20) token 6881 6881) [] 300) = Some (reply exOther (le 2 300) [], re') /\
    map addr_view (ResponderModel.answerPeers 50 (reValues re') (repeat 7 20) false) = [(false, ([10; 0; 0; 9], 6881))].
Proof.
  assert (B : forall l, bytes_okb l = true -> bytes_ok l) by (intros l; apply bytes_okb_spec).
  split; [apply announce_ok; [apply Nat.leb_le; reflexivity|split; [reflexivity|apply B; reflexivity]|split; [reflexivity|apply B; reflexivity]|reflexivity|apply B; vm_compute; reflexivity|lia]|].
  split; [vm_compute; discriminate|]. eexists. split; [vm_compute; reflexivity|]. vm_compute. reflexivity.
Qed.
