(** C45, C69: HTTP responses and announce replies. *)
From Verif Require Import Base BaseLemmas Dec DecLemmas PacketModel PacketProofs BencodeModel BencodeSpec BencodeProofs HttpModel HttpSpec HttpProofs.

Lemma useParams_one fuel m b s fs1 f fs2 st st' : status_ok s -> Forall other fs1 -> Forall other fs2 ->
  useParam fuel m b f st = HVal st' -> useParams fuel m b ((s, []) :: fs1 ++ f :: fs2) st = HVal st'.
Proof.
  intros S A B U. change ((s, []) :: fs1 ++ f :: fs2) with (((s, []) :: fs1) ++ f :: fs2).
  rewrite useParams_other by (constructor; [now apply status_other|assumption]). cbn [useParams]. rewrite U. cbn [hbind].
  pose proof (useParams_other fuel m b fs2 B st' []) as X. rewrite app_nil_r in X. now rewrite X.
Qed.

(** C45. A response with a content length (in any case of letters, among other fields) gives
    exactly the position and the length of its body, and its fields, whatever lies behind. *)
Theorem C45_content_length : forall status fs1 f fs2 n body rest m fuel,
  let fs := fs1 ++ f :: fs2 in let h := header_text status fs in
  status_ok status -> Forall field_ok fs -> Forall other fs1 -> Forall other fs2 ->
  named contentLength f -> snd f = toString n -> zlen body = n -> n < 4294967296 -> zlen h < 4294967296 ->
  (n = 0 -> rest = []) -> (length fs + 1 < fuel)%nat ->
  exists i, readHttp fuel m (h ++ body ++ rest) = HVal i /\ hvalid i = true /\
    hdataStart i = zlen h /\ hdataSize i = n /\ slice (Z.to_nat (hdataStart i)) (Z.to_nat (hdataSize i)) (h ++ body ++ rest) = body /\
    hparams i = map (fun p => (map upper (fst p), map upper (snd p))) ((status, []) :: fs).
Proof.
  intros status fs1 f fs2 n body rest m fuel fs h S F O1 O2 N V B NR HR E FU. pose proof (zlen_nonneg body).
  eexists. split.
  { apply readHttp_ok; try assumption. unfold fs. apply useParams_one; try assumption. apply useParam_length; try eassumption. lia. }
  cbn [hvalid hdataStart hdataSize hparams]. fold fs h. refine (conj _ (conj eq_refl (conj eq_refl (conj _ eq_refl)))).
  - destruct (Z.eqb_spec (zlen h) 0); [reflexivity|]. destruct (Z.eqb_spec n 0) as [->|]; [|reflexivity]. cbn [negb andb orb].
    rewrite (E eq_refl). assert (body = []) as -> by (destruct body; [reflexivity|cbn in B; discriminate]).
    cbn. rewrite app_nil_r, Z.eqb_refl. reflexivity.
  - apply slice_at; unfold zlen in *; lia.
Qed.
Print Assumptions C45_content_length.

(** C45, the part which holds of chunked bodies: position and length of the first chunk, if it
    does not begin with CR LF (and a zero byte can be read behind the buffer). The whole body
    is found only if it is a single chunk. *)
Theorem C45_first_chunk_partial : forall status fs1 f fs2 h d rest r fuel,
  let fs := fs1 ++ f :: fs2 in let hd := header_text status fs in
  status_ok status -> Forall field_ok fs -> Forall other fs1 -> Forall other fs2 ->
  named transferEncoding f -> map upper (snd f) = chunked ->
  Forall is_hex h -> h <> [] -> hex_value h = zlen d -> 0 < zlen d < 4294967296 ->
  (match d with [13] => False | 13 :: 10 :: _ => False | _ => True end) ->
  zlen hd + zlen h + 2 < 4294967296 -> (length (hd ++ chunk_text h d ++ rest) < fuel)%nat ->
  exists i, readHttp fuel (0 :: r) (hd ++ chunk_text h d ++ rest) = HVal i /\ hvalid i = true /\
    slice (Z.to_nat (hdataStart i)) (Z.to_nat (hdataSize i)) (hd ++ chunk_text h d ++ rest) = d.
Proof.
  intros status fs1 f fs2 h d rest r fuel fs hd S F O1 O2 N V H NE HV D0 D1 L FU. pose proof (zlen_nonneg h).
  assert (LF : (length fs + 1 < length hd)%nat).
  { unfold hd, header_text. rewrite !app_length. cbn [crlf length]. generalize (status_line _ S). intros [_ SN].
    assert (length fs <= length (concat (map (fun f => field_text f ++ crlf) fs)))%nat; [|lia].
    clear. induction fs as [|x l IH]; [cbn; lia|]. cbn [map concat length]. rewrite !app_length. cbn [crlf length]. lia. }
  rewrite app_length in FU.
  destruct (first_chunk fuel r hd h d rest) as (more & E); try assumption; try lia.
  { destruct d; [cbn in D0; exfalso; unfold zlen in D0; cbn in D0; lia|discriminate]. }
  eexists. split.
  { apply readHttp_ok; try assumption; try lia; [unfold hd in *; fold fs; lia|]. unfold fs. apply useParams_one; try assumption.
    eapply useParam_chunked; try eassumption. }
  cbn [hvalid hdataStart hdataSize]. split.
  - destruct (Z.eqb_spec (hex_value h) 0); [lia|]. cbn. now rewrite andb_false_r.
  - unfold chunk_text. rewrite HV. replace (hd ++ (h ++ crlf ++ d ++ crlf) ++ rest) with ((hd ++ h ++ crlf) ++ d ++ crlf ++ rest) by (now rewrite <- !app_assoc).
    apply slice_at; [|unfold zlen; lia]. rewrite !app_length. cbn [crlf length]. unfold zlen. lia.
Qed.
Print Assumptions C45_first_chunk_partial.

(** Finding: of a body of several chunks only the first is used. *)
Definition exStatus : list Z := (* HTTP/1.1 200 OK *) [72;84;84;80;47;49;46;49;32;50;48;48;32;79;75].
Definition exTE : list Z * list Z := (* Transfer-Encoding, chunked *)
  ([84;114;97;110;115;102;101;114;45;69;110;99;111;100;105;110;103], [99;104;117;110;107;101;100]).
Theorem C45_only_first_chunk_refuted : exists i, let b := header_text exStatus [exTE] ++ chunk_text [51] [97;98;99] ++ chunk_text [50] [100;101] ++ last_chunk in
  readHttp 1000 [0] b = HVal i /\ hvalid i = true /\ hsuccess i = true /\
  slice (Z.to_nat (hdataStart i)) (Z.to_nat (hdataSize i)) b = [97;98;99].
Proof. eexists. repeat split; vm_compute; reflexivity. Qed.
Print Assumptions C45_only_first_chunk_refuted.

(** Reading chunks ends, whatever the bytes. *)
Lemma chunkLoop_noend fuel : forall m l off cs chunks, (length l < fuel)%nat -> chunkLoop fuel m l off cs chunks <> HNoEnd.
Proof.
  induction fuel; intros m l off cs chunks F; [lia|]. cbn [chunkLoop]. destruct l as [|a l]; [discriminate|].
  set (pos := match crlfAt (a :: l) with Some k => k | None => (length (a :: l) - 1)%nat end).
  assert (G : forall cs' ch, chunkLoop fuel m (skipn (pos + 2) (a :: l)) (off + Z.of_nat pos + 2) cs' ch <> HNoEnd).
  { intros cs' ch. apply IHfuel. rewrite skipn_length. cbn [length] in *. lia. }
  destruct pos eqn:P; [apply G|]. destruct (cs =? 0); [destruct (strtoul16 _); [apply G|discriminate]|apply G].
Qed.

Lemma useParams_noend fuel m b : (length b < fuel)%nat -> forall ps st, useParams fuel m b ps st <> HNoEnd.
Proof.
  intros F. induction ps as [|p ps IH]; intros st; [discriminate|]. cbn [useParams].
  assert (U : useParam fuel m b p st <> HNoEnd).
  { unfold useParam. destruct st as [s n]. destruct (_ && negb _).
    - unfold stoul. destruct (strtoz _) as [[v k]|]; [|discriminate]. destruct k; [discriminate|]. destruct (_ <? _); [discriminate|]. cbn [hbind].
      destruct (_ && _ && _); [|discriminate]. unfold readChunkedData. pose proof (chunkLoop_noend fuel m (skipn (Z.to_nat s) b) s 0 []) as C.
      destruct (chunkLoop _ _ _ _ _ _) as [[|[? ?] ?]| | |]; try discriminate. exfalso. apply C; [rewrite skipn_length; lia|reflexivity].
    - cbn [hbind]. destruct (_ && _ && _); [|discriminate]. unfold readChunkedData. pose proof (chunkLoop_noend fuel m (skipn (Z.to_nat s) b) s 0 []) as C.
      destruct (chunkLoop _ _ _ _ _ _) as [[|[? ?] ?]| | |]; try discriminate. exfalso. apply C; [rewrite skipn_length; lia|reflexivity]. }
  destruct (useParam fuel m b p st); try discriminate; [apply IH|congruence].
Qed.

(** C45, termination: a buffer which has the empty line somewhere, and one which does not begin
    with HTTP, is read to its end. Missing: buffers with only a part of a header. *)
Theorem C45_terminates_partial : forall b m fuel, (length b < fuel)%nat ->
  (exists x y, b = x ++ [13; 10; 13; 10] ++ y) \/ (firstn 4 b <> [72;84;84;80] /\ firstn 4 b <> [104;116;116;112]) ->
  readHttp fuel m b <> HNoEnd.
Proof.
  intros b m fuel F H. unfold readHttp. destruct (_ || _) eqn:E; [discriminate|].
  destruct H as [(x & y & E')|[H1 H2]].
  - assert (NT : forall i, nth (length x + i) b 0 = nth i ([13; 10; 13; 10] ++ y) 0) by (intros i; rewrite E'; apply nth_app_at).
    destruct (header_ends b (length x)) with (fuel := fuel) (pos := 0%nat) (params := @nil (list Z * list Z)) as ([s ps] & R).
    + rewrite E', !app_length. cbn. lia.
    + replace (length x) with (length x + 0)%nat by lia. apply NT.
    + apply NT.
    + apply NT.
    + apply NT.
    + left. lia.
    + rewrite E', !app_length in F. cbn in F. lia.
    + rewrite R. cbn [hbind]. pose proof (useParams_noend fuel m b F ps (s, 0)). destruct (useParams _ _ _ _ _) as [[? ?]| | |]; cbn; congruence.
  - exfalso. apply orb_false_elim in E as [_ E]. apply negb_false_iff, orb_prop in E as [E|E]; apply list_eqb_spec in E; congruence.
Qed.
Print Assumptions C45_terminates_partial.

(** Finding: a header which has not arrived completely is read without end (whenever it stops
    at least two bytes into a line), growing the list of fields in memory: no number of steps
    is enough. *)
Theorem C45_partial_header_refuted : forall status fs tail m fuel,
  status_ok status -> Forall field_ok fs -> plain tail -> (2 <= length tail)%nat ->
  readHttp fuel m (status ++ crlf ++ concat (map (fun f => field_text f ++ crlf) fs) ++ tail) = HNoEnd.
Proof.
  intros status fs tail m fuel S F P L. unfold readHttp. destruct (_ || _) eqn:E.
  { exfalso. pose proof (http_prefix status fs [] S) as X. unfold header_text in X. rewrite app_nil_r in X.
    assert (LS : (4 <= length status)%nat).
    { destruct S as (_ & _ & [S|S]); apply (f_equal (@length Z)) in S; rewrite firstn_length in S; cbn [length] in S; lia. }
    assert (Q : forall t, firstn 4 (status ++ t) = firstn 4 status) by (intros t; rewrite firstn_app; replace (4 - length status)%nat with O by lia; apply app_nil_r).
    rewrite !Q in *. unfold zlen in *. rewrite !app_length in *. apply orb_false_elim in X as [_ X]. rewrite X in E. lia. }
  clear E. set (ls := status :: map field_text fs).
  assert (LO : Forall (fun l => plain l /\ l <> []) ls).
  { constructor; [now apply status_line|]. apply Forall_map. revert F. apply Forall_impl. intros f. apply field_line. }
  rewrite concat_lines. replace (status ++ crlf ++ lines_text (map field_text fs) ++ tail) with (lines_text ls ++ tail)
    by (unfold ls, lines_text; cbn [map concat]; now rewrite <- !app_assoc).
  assert (G : forall k, headerLoop k (lines_text ls ++ tail) (length (lines_text ls)) (map splitLine ls) = HNoEnd).
  { intros k. apply header_stuck.
    - rewrite app_length. lia.
    - destruct tail as [|a tail]; [cbn in L; lia|]. inversion P as [|? ? Pa _]; subst.
      replace (nth (length (lines_text ls)) (lines_text ls ++ a :: tail) 0) with a by (rewrite app_nth2, Nat.sub_diag by lia; reflexivity).
      replace (a =? 13) with false by lia. reflexivity.
    - rewrite skipn_app_at. apply crlfAt_none. destruct tail as [|a tail]; [constructor|]. cbn. inversion P. now apply plain_cr. }
  assert (MONO : forall k b pos params r, headerLoop k b pos params = HVal r -> forall j, headerLoop (k + j) b pos params = HVal r).
  { induction k; intros b pos params r K j; [discriminate|]. cbn [Nat.add headerLoop] in *. destruct (Nat.ltb _ _); [|exact K].
    destruct (_ && _); [exact K|]. destruct (crlfAt _); now apply IHk. }
  assert (NV : headerLoop fuel (lines_text ls ++ tail) 0 [] = HNoEnd).
  { destruct (headerLoop fuel (lines_text ls ++ tail) 0 []) as [r| | |] eqn:E; [|exfalso|exfalso|reflexivity].
    - specialize (MONO _ _ _ _ _ E (length ls)). pose proof (header_lines ls LO fuel [] tail []) as X. cbn [app length Nat.add] in X.
      rewrite Nat.add_comm in X. rewrite X in MONO. rewrite G in MONO. discriminate.
    - clear - E. revert E. generalize (@nil (list Z * list Z)) 0%nat. induction fuel; intros p q E; [discriminate|]. cbn [headerLoop] in E.
      destruct (Nat.ltb _ _); [|discriminate]. destruct (_ && _); [discriminate|]. destruct (crlfAt _); now apply IHfuel in E.
    - clear - E. revert E. generalize (@nil (list Z * list Z)) 0%nat. induction fuel; intros p q E; [discriminate|]. cbn [headerLoop] in E.
      destruct (Nat.ltb _ _); [|discriminate]. destruct (_ && _); [discriminate|]. destruct (crlfAt _); now apply IHfuel in E. }
  rewrite NV. reflexivity.
Qed.
Print Assumptions C45_partial_header_refuted.

Example C45_partial_header_meets : status_ok exStatus /\ Forall field_ok [exTE] /\ plain [67;111;110].
Proof.
  assert (D : forall l (p : Z -> bool), forallb p l = true -> Forall (fun c => p c = true) l).
  { intros l p H. apply Forall_forall. intros x Hx. rewrite forallb_forall in H. now apply H. }
  unfold status_ok, field_ok, plain. refine (conj (conj _ (conj _ (or_introl eq_refl))) (conj _ _)); repeat constructor; intros H; discriminate H.
Qed.

(** Finding: a content length which is not a number throws an exception nobody catches
    ([std::stoul] in 105; the [try] of HttpTrackerComm.cpp:154 begins after it). *)
Theorem C45_throw_refuted : forall m, readAnnounceResponse 100 m
  (header_text exStatus [([67;79;78;84;69;78;84;45;76;69;78;71;84;72], [120])]) = HThrow.
Proof. intros m. vm_compute. reflexivity. Qed.
Print Assumptions C45_throw_refuted.

(** ** C69 *)

Definition lookInt (name : list Z) (d : list (list Z * bval)) : Z := match lookup name KInt d with Some (BInt n) => n | _ => 0 end.

Lemma getIntOf_ok fuel m objs d name : reads m objs (BDict d) 0 -> (length d <= fuel)%nat -> 0 <= lookInt name d < 4294967296 ->
  exists v, getIntOf fuel m objs name = Val v /\ u32 v = lookInt name d.
Proof.
  intros R L H. pose proof (getObject_ok m objs d 0 name KInt fuel R L) as G. unfold lookInt in *. unfold getIntOf. change TNumber with (otype_of KInt).
  destruct (lookup name KInt d) as [v|] eqn:E.
  - assert (exists n, v = BInt n) as [n ->].
    { clear - E. induction d as [|[k w] d IH]; [discriminate|]. cbn in E. destruct (list_eqb name k && kind_eqb (kind_of w) KInt) eqn:C; [|now apply IH].
      injection E as <-. apply andb_prop in C as [_ C]. destruct w; try discriminate C. eauto. }
    destruct G as (j & -> & RJ). cbn [obind]. cbn in RJ. destruct RJ as (_ & _ & _ & J). rewrite J by lia. exists (i32 n). split; [reflexivity|].
    unfold u32, i32. lia.
  - rewrite G. exists 0. split; reflexivity.
Qed.

Lemma lookup_text name d v : lookup name KStr d = Some v -> exists s, v = BStr s.
Proof.
  induction d as [|[k w] d IH]; [discriminate|]. cbn. destruct (list_eqb name k && kind_eqb (kind_of w) KStr) eqn:C; [|exact IH].
  intros E. injection E as <-. apply andb_prop in C as [_ C]. destruct w; try discriminate C. eauto.
Qed.

Lemma popPeers_ok ps : Forall peer_ok ps -> forall pre, popPeers (length ps) {| rbuf := pre ++ peers_text ps; rpos := length pre |} =
  Ok (map (fun p => (unle (fst p), snd p)) ps).
Proof.
  induction 1 as [|[a p] ps (LA & BA & PP) _ IH]; intros pre; [reflexivity|]. cbn [fst snd] in *. cbn [length popPeers].
  unfold peers_text. cbn [map concat fst snd]. fold (peers_text ps). rewrite <- app_assoc.
  assert (UA : 0 <= unbe a < 256 ^ Z.of_nat 4) by (rewrite <- LA; now apply unbe_range).
  assert (EA : be 4 (unbe a) = a) by (rewrite <- LA; now apply be_unbe).
  unfold pop32, pop16. pose proof (popN_at 4 pre (unbe a) (be 2 p ++ peers_text ps) UA) as X. rewrite EA in X. rewrite X. cbn [bind].
  pose proof (popN_at 2 (pre ++ a) p (peers_text ps) ltac:(cbn; lia)) as Y. rewrite app_length, LA in Y. rewrite <- app_assoc in Y. rewrite Y. cbn [bind].
  specialize (IH ((pre ++ a) ++ be 2 p)). rewrite !app_length, LA, be_length in IH. rewrite <- !app_assoc in IH. rewrite IH. cbn [bind map fst snd].
  do 3 f_equal. unfold bswap. rewrite le_be, EA. reflexivity.
Qed.

Lemma contains_mid pat a b : contains pat (a ++ pat ++ b) = true.
Proof.
  induction a as [|x a IH]; cbn [app].
  - destruct pat as [|p pat]; [destruct b; reflexivity|]. cbn [app contains]. change (p :: pat ++ b) with ((p :: pat) ++ b).
    rewrite firstn_app_exact, list_eqb_refl. reflexivity.
  - cbn [contains]. rewrite IH. apply orb_true_r.
Qed.

(** A reply as it is to be understood: the interval is "min interval", else "interval", else
    five minutes (a number 0 counts as missing); "peers" counts only as text of whole peers. *)
Definition wanted_interval (d : list (list Z * bval)) : Z :=
  if negb (lookInt kMinInterval d =? 0) then lookInt kMinInterval d
  else if negb (lookInt kInterval d =? 0) then lookInt kInterval d else 300.

Definition peers_are (d : list (list Z * bval)) (ps : list (list Z * Z)) : Prop :=
  Forall peer_ok ps /\ match lookup kPeers KStr d with Some (BStr s) => s = peers_text ps | _ => ps = [] end.

Lemma peers_text_length ps : Forall peer_ok ps -> zlen (peers_text ps) = 6 * zlen ps.
Proof.
  unfold peers_text, zlen. induction 1 as [|p ps (H & _) _ IH]; [reflexivity|]. cbn [map concat length]. rewrite !app_length, H, be_length in *. lia.
Qed.

Lemma itemText_size m o s : itemText m o = Val s -> osize o = zlen s.
Proof.
  unfold itemText. destruct ((0 <=? osize o) && (0 <=? odata o) && (odata o + osize o <=? zlen m)) eqn:C; [|discriminate].
  intros E. injection E as <-. unfold zlen in *. rewrite slice_length by (unfold zlen in *; lia). lia.
Qed.

Lemma readBody_ok d ps c rest fuel : bval_ok (BDict d) -> Z.of_nat (nodes (BDict d)) < 65536 -> zlen (bencode (BDict d)) < 2147483648 ->
  (2 * nodes (BDict d) <= fuel)%nat -> peers_are d ps ->
  (forall name, In name [kMinInterval; kInterval; kComplete; kIncomplete] -> 0 <= lookInt name d < 4294967296) ->
  exists a, readBody fuel (bencode (BDict d) ++ c :: rest) (zlen (bencode (BDict d))) = Val a /\
    ainterval a = wanted_interval d /\ aseeds a = lookInt kComplete d /\ aleeches a = lookInt kIncomplete d /\
    map (fun p => (le 4 (fst p), snd p)) (apeers a) = ps.
Proof.
  intros O N L F [PO PE] I. set (body := bencode (BDict d)) in *. set (mm := body ++ c :: rest).
  destruct (parse_bencode (BDict d) c rest fuel (zlen body)) as (r & E & R & _); try assumption; [fold body; lia|]. fold body mm in E, R.
  assert (LD : (length d <= fuel)%nat).
  { assert (length d <= nodes (BDict d))%nat; [|lia]. cbn [nodes]. clear. induction d; cbn [map list_sum fold_right length] in *; [lia|]. unfold list_sum in *. cbn [map fold_right] in *. lia. }
  unfold readBody. rewrite E. cbn [obind].
  assert (T : match pobjs r with [] => true | o :: _ => negb (typeEqb (otyp o) TDict) end = false).
  { cbn in R. destruct R as (R1 & R2 & _). destruct (pobjs r); [cbn in R1; lia|]. cbn [nth] in R2. rewrite R2. reflexivity. }
  rewrite T. clear T.
  destruct (getIntOf_ok fuel mm (pobjs r) d kMinInterval R LD) as (v1 & G1 & U1); [apply I; cbn; auto|].
  destruct (getIntOf_ok fuel mm (pobjs r) d kInterval R LD) as (v2 & G2 & U2); [apply I; cbn; auto|].
  destruct (getIntOf_ok fuel mm (pobjs r) d kComplete R LD) as (v3 & G3 & U3); [apply I; cbn; auto|].
  destruct (getIntOf_ok fuel mm (pobjs r) d kIncomplete R LD) as (v4 & G4 & U4); [apply I; cbn; auto 6|].
  rewrite G1. cbn [obind]. rewrite U1.
  set (i2 := if lookInt kMinInterval d =? 0 then v2 else v1).
  replace (if lookInt kMinInterval d =? 0 then getIntOf fuel mm (pobjs r) kInterval else Val v1) with (Val i2) by (unfold i2; destruct (_ =? 0); congruence).
  cbn [obind]. rewrite G3, G4. cbn [obind]. rewrite U3, U4.
  assert (W : (if u32 i2 =? 0 then 300 else u32 i2) = wanted_interval d).
  { unfold wanted_interval, i2. destruct (Z.eqb_spec (lookInt kMinInterval d) 0) as [Z0|Z0]; cbn [negb].
    - rewrite U2. destruct (lookInt kInterval d =? 0); reflexivity.
    - rewrite U1. destruct (Z.eqb_spec (lookInt kMinInterval d) 0); [contradiction|reflexivity]. }
  rewrite W. pose proof (getObject_ok mm (pobjs r) d 0 kPeers KStr fuel R LD) as G. change TText with (otype_of KStr).
  destruct (lookup kPeers KStr d) as [v|] eqn:LP.
  - destruct (lookup_text _ _ _ LP) as [s ->]. destruct G as (j & -> & RJ). cbn [obind]. destruct RJ as (_ & _ & TX).
    rewrite (itemText_size _ _ _ TX). subst s. rewrite TX. rewrite peers_text_length by assumption. pose proof (zlen_nonneg ps).
    rewrite Z.mul_comm, Z.rem_mul, Z.div_mul by lia. change (0 =? 0) with true. cbn iota. cbn [obind].
    pose proof (popPeers_ok ps PO []) as X. cbn [app length] in X. unfold newReader. unfold zlen. rewrite Nat2Z.id. rewrite X.
    eexists. split; [reflexivity|]. cbn [ainterval aseeds aleeches apeers]. refine (conj eq_refl (conj eq_refl (conj eq_refl _))).
    rewrite map_map. cbn [fst snd]. clear - PO. induction PO as [|[a p] ps (LA & BA & _) _ IH]; [reflexivity|]. cbn [map fst snd] in *. rewrite IH. do 2 f_equal.
    rewrite <- LA. now apply le_unle.
  - rewrite G. cbn [obind]. subst ps. eexists. split; [reflexivity|]. cbn. auto.
Qed.

(** C69. An announce reply "200 OK" with a content length: interval, numbers of seeds and
    leeches and the peers are exactly those encoded in its body; an address is the four bytes
    sent (Network.cpp:64-69 copies the bytes of the number), and exactly the bytes up to the
    end of the body are used. Missing: a byte behind the body must be readable (the parser
    looks at it). *)
Theorem C69_announce_partial : forall status fs1 f fs2 d ps rest m fuel,
  let fs := fs1 ++ f :: fs2 in let h := header_text status fs in let body := bencode (BDict d) in
  status_ok status -> (exists a b, map upper status = a ++ k200OK ++ b) ->
  Forall field_ok fs -> Forall other fs1 -> Forall other fs2 -> named contentLength f -> snd f = toString (zlen body) ->
  bval_ok (BDict d) -> Z.of_nat (nodes (BDict d)) < 65536 -> zlen h + zlen body < 2147483648 -> peers_are d ps ->
  (forall name, In name [kMinInterval; kInterval; kComplete; kIncomplete] -> 0 <= lookInt name d < 4294967296) ->
  rest ++ m <> [] -> (length fs + 1 < fuel)%nat -> (2 * nodes (BDict d) <= fuel)%nat ->
  exists a, readAnnounceResponse fuel m (h ++ body ++ rest) = HVal (Some (zlen h + zlen body, a)) /\
    ainterval a = wanted_interval d /\ aseeds a = lookInt kComplete d /\ aleeches a = lookInt kIncomplete d /\
    map (fun p => (le 4 (fst p), snd p)) (apeers a) = ps.
Proof.
  intros status fs1 f fs2 d ps rest m fuel fs h body S OKS F O1 O2 N V OKD ND LB PA I RM FU FU2.
  pose proof (zlen_nonneg h). assert (B0 : 0 < zlen body) by (unfold body, zlen; cbn [bencode]; rewrite app_length; cbn [length]; lia).
  assert (H0 : 0 < zlen h) by (unfold h, header_text, zlen; rewrite !app_length; cbn [crlf length]; lia).
  unfold readAnnounceResponse.
  unfold h at 1. rewrite (readHttp_ok status fs (body ++ rest) m fuel (zlen h) (zlen body)); try assumption.
  2:{ fold h. lia. }
  2:{ fold h. unfold fs. apply useParams_one; try assumption. apply useParam_length; try assumption. lia. }
  fold h. cbn [hbind hvalid hsuccess hdataStart hdataSize].
  replace (zlen h =? 0) with false by lia. replace (zlen body =? 0) with false by lia. cbn [negb andb orb].
  destruct OKS as (a & b & ->). rewrite contains_mid. cbn [negb].
  assert (US : u32 (zlen h + zlen body) = zlen h + zlen body) by (unfold u32; apply Z.mod_small; lia). rewrite US.
  replace (zlen h + zlen body <=? zlen (h ++ body ++ rest)) with true by (rewrite !zlen_app; pose proof (zlen_nonneg rest); lia).
  replace (skipn (Z.to_nat (zlen h)) ((h ++ body ++ rest) ++ m)) with (body ++ rest ++ m).
  2:{ rewrite <- !app_assoc. symmetry. apply skipn_app_len. unfold zlen. lia. }
  destruct (rest ++ m) as [|c t] eqn:ER; [congruence|].
  destruct (readBody_ok d ps c t fuel) as (x & RB & X); try assumption; [fold body; lia|]. fold body in RB. rewrite RB. exists x. split; [reflexivity|exact X].
Qed.
Print Assumptions C69_announce_partial.

(** A reply which has not arrived completely is waited for. *)
Theorem C69_waits : forall status fs1 f fs2 n body m fuel,
  let fs := fs1 ++ f :: fs2 in let h := header_text status fs in
  status_ok status -> (exists a b, map upper status = a ++ k200OK ++ b) ->
  Forall field_ok fs -> Forall other fs1 -> Forall other fs2 -> named contentLength f -> snd f = toString n ->
  zlen body < n -> zlen h + n < 4294967296 -> (length fs + 1 < fuel)%nat ->
  readAnnounceResponse fuel m (h ++ body) = HVal (Some (0, noResp)).
Proof.
  intros status fs1 f fs2 n body m fuel fs h S OKS F O1 O2 N V LB LH FU. pose proof (zlen_nonneg body). pose proof (zlen_nonneg h).
  unfold readAnnounceResponse. unfold h at 1. rewrite (readHttp_ok status fs body m fuel (zlen h) n); try assumption.
  2:{ fold h. lia. }
  2:{ fold h. unfold fs. apply useParams_one; try assumption. apply useParam_length; try assumption. lia. }
  fold h. cbn [hbind hvalid hsuccess hdataStart hdataSize]. replace (n =? 0) with false by lia. cbn [negb andb orb]. rewrite andb_false_r.
  destruct OKS as (a & b & ->). rewrite contains_mid. cbn [negb orb].
  assert (US : u32 (zlen h + n) = zlen h + n) by (unfold u32; apply Z.mod_small; lia). rewrite US.
  rewrite zlen_app. replace (zlen h + n <=? zlen h + zlen body) with false by lia. rewrite andb_false_r. reflexivity.
Qed.
Print Assumptions C69_waits.

Definition exCL (n : Z) : list Z * list Z := (* Content-Length *) ([67;111;110;116;101;110;116;45;76;101;110;103;116;104], toString n).
Definition exReply : list (list Z * bval) :=
  [(kComplete, BInt 5); (kIncomplete, BInt 7); (kInterval, BInt 1800); (kPeers, BStr [1;2;3;4;26;225;9;8;7;6;0;80])].

Example C69_meets : status_ok exStatus /\ (exists a b, map upper exStatus = a ++ k200OK ++ b) /\
  Forall field_ok [exCL (zlen (bencode (BDict exReply)))] /\ named contentLength (exCL 5) /\ bval_ok (BDict exReply) /\
  peers_are exReply [([1;2;3;4], 6881); ([9;8;7;6], 80)] /\
  match readAnnounceResponse 100 [0] (header_text exStatus [exCL (zlen (bencode (BDict exReply)))] ++ bencode (BDict exReply)) with
  | HVal (Some (n, a)) => (n =? zlen (header_text exStatus [exCL 74]) + zlen (bencode (BDict exReply))) && (ainterval a =? 1800) && (aseeds a =? 5) && (Nat.eqb (length (apeers a)) 2)
  | _ => false
  end = true.
Proof.
  refine (conj (proj1 C45_partial_header_meets) (conj _ (conj _ (conj eq_refl (conj _ (conj _ _)))))).
  - exists [72;84;84;80;47;49;46;49;32], []. reflexivity.
  - unfold field_ok, plain. repeat constructor; try (intros X; discriminate X).
  - cbn. unfold bytes_ok. repeat split; try lia; repeat constructor; unfold is_byte; lia.
  - split; [|reflexivity]. unfold peer_ok. constructor; [|constructor; [|constructor]]; (refine (conj eq_refl (conj _ _)); [unfold bytes_ok; cbn; repeat constructor; unfold is_byte; lia|cbn; lia]).
  - vm_compute. reflexivity.
Qed.

Example C45_meets : other (([65], [66]) : list Z * list Z) /\ named contentLength (exCL 5) /\ named transferEncoding exTE /\ Forall is_hex [65; 48; 102] /\ hex_value [65; 48; 102] = 2575.
Proof.
  refine (conj _ (conj eq_refl (conj eq_refl (conj _ eq_refl)))).
  - split; intros X; discriminate X.
  - unfold is_hex. repeat constructor; lia.
Qed.

(** Finding: header and content length are added in 32 bits, so a content length near 2^32
    passes the check, and the parser is told a length far behind the buffer. *)
Theorem C69_length_wraps_refuted :
  readAnnounceResponse 1000 [] (header_text exStatus [exCL 4294967270] ++ [100]) = HUndef.
Proof. vm_compute. reflexivity. Qed.
Print Assumptions C69_length_wraps_refuted.
