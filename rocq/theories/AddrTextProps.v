(** C107: an address typed in is the address connected to *)
From Verif Require Import Base BaseLemmas Dec DecLemmas AddrModel AddrSpec AddrProofs PeersModel AddrTextModel AddrTextSpec AddrTextProofs.
From Coq Require Import Lia List.
Import ListNotations.

(** An address given with its port apart is the one typed, for dotted quads and whatever else the reader knows ... *)
Theorem C107_apart : forall make old t v6 b p, reader make -> make t = Some (v6, b) -> (exists x, In x b /\ x <> 0) ->
  meaning (fromStringPort make old t p) = (v6, b, p).
Proof.
  intros make old t v6 b p (_ & R4 & R6) M (x & I & N). unfold fromStringPort, asioFromString, newAddr, setAsio. rewrite M.
  assert (U : isUnspecified (v6, b) = false).
  { destruct (isUnspecified (v6, b)) eqn:U; [|reflexivity]. unfold isUnspecified in U. cbn [snd] in U. rewrite forallb_forall in U. specialize (U _ I). apply Z.eqb_eq in U. contradiction. }
  rewrite U. unfold meaning. cbn [ipv6 addrBytes port fst snd].
  assert (L : length b = addrSize v6). { destruct v6; [now apply (R6 t)|]. destruct (R4 t b M) as (a1 & a2 & a3 & a4 & t1 & t2 & t3 & t4 & -> & _). reflexivity. }
  rewrite putBytes_first by lia. now rewrite <- L, firstn_all.
Qed.
Print Assumptions C107_apart.

(** ... and 0.0.0.0, or what is no address, is refused whatever the port *)
Theorem C107_refused : forall make old t p, (make t = None \/ exists v6 b, make t = Some (v6, b) /\ forall x, In x b -> x = 0) -> validAddr (fromStringPort make old t p) = false.
Proof.
  intros make old t p H. unfold fromStringPort, asioFromString, newAddr, setAsio. destruct H as [->|(v6 & b & -> & H)]; [reflexivity|].
  replace (isUnspecified (v6, b)) with true; [reflexivity|]. symmetry. unfold isUnspecified. cbn [snd]. rewrite forallb_forall. intros x I. now apply Z.eqb_eq, H.
Qed.
Print Assumptions C107_refused.

(** Every text but the empty one is read within its bounds ... *)
Theorem C107_within : forall make old t, t <> [] -> fromString make old t <> UB.
Proof.
  intros make old t N. unfold fromString. assert (I : In 0 (skipn (portStart t (length t) + 1) (t ++ [0]))).
  { rewrite skipn_app. apply in_or_app. right. pose proof (portStart_le t (length t)) as L.
    assert (portStart t (length t) <> length t) as K.
    { destruct t as [|c t']; [contradiction|]. cbn [length portStart]. replace (nth (S (length t')) ((c :: t') ++ [0]) 0) with 0; [|change (S (length t')) with (length (c :: t')); rewrite app_nth2 by lia; now rewrite Nat.sub_diag].
      pose proof (portStart_le (c :: t') (length t')). cbn. lia. }
    replace (portStart t (length t) + 1 - length t)%nat with O by lia. now left. }
  pose proof (strtoull_zero _ I). destruct (strtoull _) as [[v n]|]; [discriminate|contradiction].
Qed.
Print Assumptions C107_within.

(** ... which is read past its end *)
Theorem C107_empty_refuted : forall make old, fromString make old [] = UB.
Proof. reflexivity. Qed.
Print Assumptions C107_empty_refuted.

(** Finding: a text is tried as an address with its port still in it. So a dotted quad followed by a colon and a port, any quad and any port, is never connected to ... *)
Theorem C107_port_refuted : forall make tcp utp pref s old b q n p time, reader make -> quad b q -> decimal n p ->
  connectText make tcp utp pref s old (q ++ [58] ++ p) time = Ok None.
Proof.
  intros make tcp utp pref s old b q n p time (R1 & R4 & R6) Q D. unfold connectText.
  assert (C : colons (q ++ [58] ++ p) = 1%nat). { rewrite !colons_app, (quad_colons b q Q), (colons_none p); [reflexivity|]. eapply digits_colon, decimal_digits, D. }
  pose proof (C107_within make old (q ++ [58] ++ p)) as W. destruct (fromString make old (q ++ [58] ++ p)) as [a|] eqn:F; [|destruct W; [destruct q; discriminate|reflexivity]]. cbn [bind].
  unfold fromString in F. destruct (strtoull _) as [[v k]|]; [|discriminate F]. injection F as <-.
  assert (M : make (q ++ [58] ++ p) = None).
  { destruct (make (q ++ [58] ++ p)) as [[[|] b']|] eqn:M; [..|reflexivity]; exfalso.
    - apply R6 in M as (_ & _ & M). lia.
    - apply R4, quad_colons in M. lia. }
  unfold newAddr, setAsio, validAddr, asioFromString. change (q ++ 58 :: p) with (q ++ [58] ++ p). rewrite M. reflexivity.
Qed.
Print Assumptions C107_port_refuted.

(** ... nor is what the program itself shows as the address of a peer. *)
Theorem C107_shown_refuted : forall make old b p t, reader make -> length b = 4%nat -> bytes_ok b -> 0 <= p < 65536 -> toIpv4String b p = Ok t ->
  exists a, fromString make old t = Ok a /\ validAddr a = false.
Proof.
  intros make old b p t (R1 & R4 & R6) L B P H.
  assert (N : forall i, is_byte i -> ~ In 58 (iToString i)).
  { intros i I X. unfold iToString in X. unfold is_byte in I. pose proof (Z.div_mod i 100 ltac:(lia)). pose proof (Z.mod_pos_bound i 100 ltac:(lia)). pose proof (Z.div_mod i 10 ltac:(lia)). pose proof (Z.mod_pos_bound i 10 ltac:(lia)).
    destruct (Z.ltb_spec 99 i).
    - pose proof (Z.div_mod (i - i / 100 * 100) 10 ltac:(lia)). pose proof (Z.mod_pos_bound (i - i / 100 * 100) 10 ltac:(lia)). destruct (Z.ltb_spec 9 (i - i / 100 * 100)); cbn in X; lia.
    - destruct (Z.ltb_spec 9 i); cbn in X; lia. }
  unfold toIpv4String in H. destruct (portDigits 5 p []) as [ps|] eqn:D; [|discriminate H]. cbn [bind] in H. match type of H with Ok ?x = Ok _ => assert (x = t) as <- by congruence end.
  destruct b as [|b1 [|b2 [|b3 [|b4 [|? ?]]]]]; try discriminate L. cbn [nth]. inversion B as [|? ? B1 B']; subst. inversion B' as [|? ? B2 B'']; subst. inversion B'' as [|? ? B3 B3']; subst. inversion B3' as [|? ? B4 _]; subst.
  assert (ND : ~ In 58 ps).
  { assert (K : forall r q acc l, 0 <= q -> ~ In 58 acc -> portDigits r q acc = Ok l -> ~ In 58 l).
    { induction r as [|r I]; intros q acc l Q A E; [discriminate E|]. cbn [portDigits] in E. pose proof (Z.mod_pos_bound q 10 ltac:(lia)). assert (A' : ~ In 58 ((48 + q mod 10) :: acc)) by (intros [X|X]; [lia|contradiction]).
      destruct (q / 10 =? 0); [injection E as <-; exact A'|]. eapply I; [|exact A'|exact E]. apply Z.div_pos; lia. }
    refine (K _ _ _ _ _ _ D); [lia|intros X; exact X]. }
  set (t := iToString b1 ++ _). assert (C : colons t = 1%nat). { unfold t. rewrite !colons_app, (colons_none (iToString b1)), (colons_none (iToString b2)), (colons_none (iToString b3)), (colons_none (iToString b4)), (colons_none ps); [reflexivity|assumption|now apply N..]. }
  assert (T : t <> []). { intros E. rewrite E in C. discriminate C. }
  pose proof (C107_within make old t T) as W. destruct (fromString make old t) as [a|] eqn:F; [|contradiction]. exists a. split; [reflexivity|].
  unfold fromString in F. destruct (strtoull _) as [[v k]|]; [|discriminate F]. injection F as <-.
  assert (M : make t = None).
  { destruct (make t) as [[[|] b']|] eqn:M; [..|reflexivity]; exfalso.
    - apply R6 in M as (_ & _ & M). lia.
    - apply R4, quad_colons in M. lia. }
  unfold asioFromString. rewrite M. reflexivity.
Qed.
Print Assumptions C107_shown_refuted.

(** Finding: a quad without a port is taken, with a port made of the digits of its first number after the first *)
Theorem C107_bare_refuted : forall make old a b c d q, reader make -> quad [a; b; c; d] q -> 0 < a ->
  exists x, fromString make old q = Ok x /\ meaning x = (false, [a; b; c; d], if a <? 10 then 0 else if a <? 100 then a mod 10 else a mod 100).
Proof.
  intros make old a b c d q R Q A. pose proof R as (R1 & _). pose proof (R1 _ _ Q) as M. pose proof (quad_colons _ _ Q) as C. apply count_occ_not_In in C.
  assert (G : exists k, strtoull (skipn 1 (q ++ [0])) = Some (if a <? 10 then 0 else if a <? 100 then a mod 10 else a mod 100, k)).
  { destruct Q as (a1 & a2 & a3 & a4 & t1 & t2 & t3 & t4 & E & B1 & _ & _ & _ & D1 & _ & _ & _ & ->). injection E as <- <- <- <-. apply octet_only in D1; [|assumption]. subst t1. unfold is_byte in B1.
    pose proof (Z.mod_pos_bound a 10 ltac:(lia)). pose proof (Z.mod_pos_bound (a / 10) 10 ltac:(lia)). pose proof (Z.mod_pos_bound a 100 ltac:(lia)). unfold octet.
    destruct (Z.ltb_spec a 10); [|destruct (Z.ltb_spec a 100)]; rewrite <- !app_assoc; cbn [app skipn].
    - eexists. reflexivity.
    - change (48 + a mod 10 :: 46 :: ?r) with ([48 + a mod 10] ++ 46 :: r). apply strtoull_decimal; [now apply dec_digit|lia|reflexivity].
    - unfold strtoull. change (48 + a / 10 mod 10 :: 48 + a mod 10 :: 46 :: ?r) with ([48 + a / 10 mod 10; 48 + a mod 10] ++ 46 :: r). rewrite strtoz_digits; [|cbn; unfold isDigit; rewrite Bool.andb_true_r; repeat (apply andb_true_intro; split); apply Z.leb_le; lia|discriminate|reflexivity].
      assert (U : undigits 0 [48 + a / 10 mod 10; 48 + a mod 10] = a mod 100).
      { cbn. change 100 with (10 * 10). rewrite (Z.rem_mul_r a 10 10) by lia. lia. }
      rewrite U. destruct (Z.ltb_spec 18446744073709551615 (Z.abs (a mod 100))); [lia|]. unfold u64. rewrite Z.mod_small by lia. eauto. }
  destruct G as (k & G). unfold fromString. rewrite portStart_none by exact C. cbn [Nat.add]. rewrite G. eexists. split; [reflexivity|].
  assert (V : forall v, 0 <= v < 256 -> u16 v = v) by (intros v V; unfold u16; apply Z.mod_small; lia).
  rewrite V; [|destruct (Z.ltb_spec a 10); [lia|]; destruct (Z.ltb_spec a 100); [pose proof (Z.mod_pos_bound a 10 ltac:(lia))|pose proof (Z.mod_pos_bound a 100 ltac:(lia))]; lia].
  eapply (C107_apart make old q false [a; b; c; d] _ R M). exists a. split; [now left|lia].
Qed.
Print Assumptions C107_bare_refuted.

(** Finding: of an IPv6 address the last group is also taken as the port *)
Theorem C107_v6_refuted : forall make old h n p b, reader make -> h <> [] -> decimal n p -> 0 <= n < 65536 -> make (h ++ [58] ++ p) = Some (true, b) -> (exists x, In x b /\ x <> 0) ->
  exists a, fromString make old (h ++ [58] ++ p) = Ok a /\ meaning a = (true, b, n).
Proof.
  intros make old h n p b R N D B M X. unfold fromString. destruct (decimal_digits _ _ D) as (F & _). rewrite portStart_last; [|exact N|now apply digits_colon].
  assert (S1 : skipn (length h + 1) ((h ++ [58] ++ p) ++ [0]) = p ++ [0]).
  { rewrite <- app_assoc, skipn_app, skipn_all2 by lia. replace (length h + 1 - length h)%nat with 1%nat by lia. reflexivity. }
  rewrite S1. destruct (strtoull_decimal n p 0 [] D ltac:(lia) eq_refl) as (k & ->). eexists. split; [reflexivity|].
  replace (u16 n) with n by (unfold u16; now rewrite Z.mod_small by lia). eapply (C107_apart make old _ true b n R M X).
Qed.
Print Assumptions C107_v6_refuted.

(** So whatever is connected to is an address that was typed, whole *)
Theorem C107_typed : forall make old t a, reader make -> fromString make old t = Ok a -> validAddr a = true ->
  make t = Some (ipv6 a, firstn (addrSize (ipv6 a)) (addrBytes a)) /\ 0 <= port a < 65536.
Proof.
  intros make old t a R F V. unfold fromString in F. destruct (strtoull _) as [[v k]|]; [|discriminate F]. injection F as <-.
  change (validAddr (fromStringPort make old t (u16 v)) = true) in V. destruct (make t) as [[v6 b]|] eqn:M; [|now rewrite (C107_refused make old t (u16 v) (or_introl M)) in V].
  assert (X : exists x, In x b /\ x <> 0).
  { destruct (existsb (fun x => negb (x =? 0)) b) eqn:E.
    - apply existsb_exists in E as (x & I & H). exists x. split; [exact I|]. destruct (Z.eqb_spec x 0); [discriminate H|assumption].
    - enough (validAddr (fromStringPort make old t (u16 v)) = false) by (unfold fromStringPort in *; congruence). apply C107_refused. right. exists v6, b. split; [exact M|]. intros x I.
      destruct (Z.eqb_spec x 0) as [|K]; [assumption|]. exfalso. assert (existsb (fun x => negb (x =? 0)) b = true); [|congruence]. apply existsb_exists. exists x. split; [exact I|]. destruct (Z.eqb_spec x 0); [contradiction|reflexivity]. }
  pose proof (C107_apart make old t v6 b (u16 v) R M X) as E. unfold fromStringPort in E. set (a := newAddr _ _ _) in *. unfold meaning in E. injection E as E1 E2 E3. rewrite E1 in *. rewrite E2, E3. split; [reflexivity|]. unfold u16. apply Z.mod_pos_bound. lia.
Qed.
Print Assumptions C107_typed.

(** A typed address that is taken is connected to as Peers::connect does, and nothing changes otherwise *)
Theorem C107_connect : forall make tcp utp pref s old t time a, fromString make old t = Ok a ->
  (validAddr a = false -> connectText make tcp utp pref s old t time = Ok None) /\
  (validAddr a = true -> forall s', connectText make tcp utp pref s old t time = Ok (Some s') <->
    connectAddr addr addrEq {| addrBytes := repeat 0 16; port := 0; ipv6 := false |} tcp utp pref s a false time = Ok s').
Proof.
  intros make tcp utp pref s old t time a F. unfold connectText. rewrite F. cbn [bind]. split; intros ->; [reflexivity|]. intros s'. destruct (connectAddr _ _ _ _ _ _ _ _ _ _) as [s1|]; cbn [bind]; split; intros H; try discriminate H; congruence.
Qed.
Print Assumptions C107_connect.

(** An address set from bytes is IPv4 for 4 of them and IPv6 for 16; more than 16 are written past its end *)
Theorem C107_bytes : forall old ip p, length old = 16%nat ->
  (length ip = 4%nat \/ length ip = 16%nat -> exists a, setBuffer old ip p = Ok a /\ meaning a = ((length ip =? 16)%nat, ip, p) /\ length (addrBytes a) = 16%nat) /\
  ((16 < length ip)%nat -> setBuffer old ip p = UB).
Proof.
  intros old ip p L. unfold setBuffer. split.
  - intros H. assert (Nat.leb (length ip) 16 = true) as -> by (apply Nat.leb_le; lia). eexists. split; [reflexivity|]. unfold meaning, putBytes. cbn [ipv6 addrBytes port].
    rewrite firstn_all. destruct H as [H|H]; rewrite H; cbn [Nat.ltb Nat.leb Nat.eqb addrSize]; (split; [do 2 f_equal; rewrite <- H, firstn_app, Nat.sub_diag, firstn_all, app_nil_r; reflexivity|rewrite app_length, skipn_length; lia]).
  - intros H. destruct (Nat.leb_spec (length ip) 16); [lia|reflexivity].
Qed.
Print Assumptions C107_bytes.

(** There are readers *)
Example C107_reader_ex : exists make, reader make.
Proof. exists readQuad. exact readQuad_reader. Qed.
(** "12.3.4.5" is connected to at port 2, "12.3.4.5:6881" is refused *)
Example C107_bare_ex : let q := [49; 50; 46; 51; 46; 52; 46; 53] in quad [12; 3; 4; 5] q /\ exists a, fromString readQuad (repeat 7 16) q = Ok a /\ port a = 2 /\ validAddr a = true /\ fromString readQuad (repeat 7 16) (q ++ [58; 54; 56; 56; 49]) = Ok {| addrBytes := repeat 7 16; port := 0; ipv6 := false |}.
Proof.
  split; [|eexists; vm_compute; repeat split]. exists 12, 3, 4, 5. exists [49; 50], [51], [52], [53].
  repeat (split; [first [reflexivity|split; [discriminate|reflexivity]|apply (dec_digit 3); split; [discriminate|reflexivity]|apply (dec_digit 4); split; [discriminate|reflexivity]|apply (dec_digit 5); split; [discriminate|reflexivity]|apply (dec_more 1 2 [49]); [reflexivity|apply (dec_digit 1); split; [discriminate|reflexivity]|split; [discriminate|reflexivity]]]|]). reflexivity.
Qed.
(** A peer at port 2 is tried *)
Example C107_connect_ex : exists s', connectText readQuad true false false (setRun addr (newPeers addr 10) false true) (repeat 0 16) [49; 50; 46; 51; 46; 52; 46; 53] 5 = Ok (Some s') /\ length (pactive addr s') = 1%nat.
Proof. eexists. split; vm_compute; reflexivity. Qed.
(** A reader that also knows "fe80::1:80" *)
Definition fe80 : list Z := [102; 101; 56; 48; 58; 58; 49] ++ [58] ++ [56; 48].
Definition fe80Bytes : list Z := [254; 128; 0; 0; 0; 0; 0; 0; 0; 0; 0; 0; 0; 1; 0; 128].
Definition readBoth (t : list Z) : option (bool * list Z) := if list_eq_dec Z.eq_dec t fe80 then Some (true, fe80Bytes) else readQuad t.
Example C107_v6_ex : reader readBoth /\ exists a, fromString readBoth (repeat 0 16) fe80 = Ok a /\ meaning a = (true, fe80Bytes, 80).
Proof.
  destruct readQuad_reader as (R1 & R4 & R6). split; [|eexists; split; vm_compute; reflexivity]. unfold readBoth. split; [|split].
  - intros b t Q. destruct (list_eq_dec Z.eq_dec t fe80) as [->|_]; [|now apply R1]. apply quad_colons in Q. discriminate Q.
  - intros t b H. destruct (list_eq_dec Z.eq_dec t fe80); [discriminate H|now apply R4].
  - intros t b H. destruct (list_eq_dec Z.eq_dec t fe80) as [->|_]; [|now apply (R6 t b)]. injection H as <-. split; [reflexivity|]. split; [|vm_compute; lia].
    unfold bytes_ok, fe80Bytes, is_byte. repeat constructor; lia.
Qed.
