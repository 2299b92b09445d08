(** Proofs about HTTP responses. *)
From Verif Require Import Base BaseLemmas Dec DecLemmas BencodeModel PacketModel PacketProofs HttpModel HttpSpec.

(** ** Lines *)

Lemma crlfAt_plain l : forall r, Forall (fun c => c <> 13) l -> crlfAt (l ++ 13 :: 10 :: r) = Some (length l).
Proof.
  induction l as [|a l IH]; intros r H; [reflexivity|]. inversion H; subst.
  cbn [app length]. specialize (IH r H3). destruct (l ++ 13 :: 10 :: r) as [|b t] eqn:E; [destruct l; discriminate|].
  change (crlfAt (a :: b :: t)) with (if (a =? 13) && (b =? 10) then Some O else match crlfAt (b :: t) with Some k => Some (S k) | None => None end).
  replace (a =? 13) with false by lia. cbn [andb]. now rewrite IH.
Qed.

Lemma plain_cr l : plain l -> Forall (fun c => c <> 13) l.
Proof. apply Forall_impl. now intros. Qed.

Lemma colonAt_app n : forall r, Forall (fun c => c <> 58) n -> colonAt (n ++ 58 :: r) = Some (length n).
Proof.
  induction n as [|a n IH]; intros r H; [reflexivity|]. inversion H; subst. cbn. replace (a =? 58) with false by lia. now rewrite IH.
Qed.

Lemma colonAt_none n : Forall (fun c => c <> 58) n -> colonAt n = None.
Proof. induction 1 as [|a n H _ IH]; [reflexivity|]. cbn. replace (a =? 58) with false by lia. now rewrite IH. Qed.

Lemma splitLine_field f : field_ok f -> splitLine (field_text f) = f.
Proof.
  intros (_ & _ & C). destruct f as [n v]. unfold splitLine, field_text. cbn [fst snd app] in *. rewrite colonAt_app by assumption.
  rewrite app_length. cbn [length]. replace (Nat.ltb (length n + 1) (length n + S (S (length v)))) with true by lia.
  rewrite firstn_app_len by reflexivity. f_equal. replace (n ++ 58 :: 32 :: v) with ((n ++ [58; 32]) ++ v) by now rewrite <- app_assoc.
  apply skipn_app_len. rewrite app_length. reflexivity.
Qed.

Lemma splitLine_status s : Forall (fun c => c <> 58) s -> splitLine s = (s, []).
Proof. intros H. unfold splitLine. now rewrite colonAt_none. Qed.

Definition lines_text (ls : list (list Z)) : list Z := concat (map (fun l => l ++ crlf) ls).

Lemma nth_app_at {A} (a : list A) b i d : nth (length a + i) (a ++ b) d = nth i b d.
Proof. rewrite app_nth2 by lia. f_equal. lia. Qed.

Lemma skipn_app_at {A} (a b : list A) i : skipn (length a + i) (a ++ b) = skipn i b.
Proof. rewrite skipn_app. rewrite skipn_all2 by lia. cbn. f_equal. lia. Qed.

Lemma header_step fuel pre l rest params : plain l -> l <> [] ->
  headerLoop (S fuel) (pre ++ l ++ crlf ++ rest) (length pre) params =
  headerLoop fuel (pre ++ l ++ crlf ++ rest) (length (pre ++ l ++ crlf)) (params ++ [splitLine l]).
Proof.
  intros P N. destruct l as [|x l]; [congruence|]. inversion P as [|? ? Hx Hl]; subst.
  cbn [headerLoop]. rewrite !app_length. cbn [length crlf].
  replace (Nat.ltb (length pre + 1) (length pre + (S (length l) + (2 + length rest)))) with true by lia.
  replace (nth (length pre) (pre ++ (x :: l) ++ crlf ++ rest) 0) with x.
  2:{ replace (length pre) with (length pre + 0)%nat at 1 by lia. now rewrite nth_app_at. }
  replace (x =? 13) with false by lia. cbn [andb].
  rewrite skipn_app_at. cbn [app skipn crlf]. rewrite crlfAt_plain by now apply plain_cr.
  f_equal; [lia|]. do 3 f_equal. unfold slice. replace (length pre) with (length pre + 0)%nat at 1 by lia. rewrite skipn_app_at. cbn [skipn].
  change (x :: l ++ 13 :: 10 :: rest) with ((x :: l) ++ 13 :: 10 :: rest). apply firstn_app_len. cbn. lia.
Qed.

Lemma header_lines ls : Forall (fun l => plain l /\ l <> []) ls -> forall fuel pre rest params,
  headerLoop (length ls + fuel) (pre ++ lines_text ls ++ rest) (length pre) params =
  headerLoop fuel (pre ++ lines_text ls ++ rest) (length pre + length (lines_text ls)) (params ++ map splitLine ls).
Proof.
  induction 1 as [|l ls [P N] _ IH]; intros fuel pre rest params.
  - cbn. rewrite Nat.add_0_r, app_nil_r. reflexivity.
  - unfold lines_text. cbn [map concat length Nat.add]. fold (lines_text ls).
    rewrite <- !app_assoc. rewrite header_step by assumption.
    specialize (IH fuel (pre ++ l ++ crlf) rest (params ++ [splitLine l])). rewrite <- !app_assoc in IH. rewrite IH.
    cbn [map app]. f_equal. rewrite !app_length. lia.
Qed.

(** The empty line ends the header. *)
Lemma header_end fuel pre rest params : headerLoop (S fuel) (pre ++ crlf ++ rest) (length pre) params = HVal (u32 (Z.of_nat (length pre) + 2), params).
Proof.
  cbn [headerLoop]. rewrite !app_length. cbn [length crlf].
  replace (Nat.ltb (length pre + 1) (length pre + (2 + length rest))) with true by lia.
  rewrite nth_app_at. replace (nth (length pre) (pre ++ crlf ++ rest) 0) with 13; [reflexivity|].
  now rewrite app_nth2, Nat.sub_diag by lia.
Qed.

(** Without a further CR LF the loop stays where it is. *)
Lemma header_stuck b pos : (pos + 1 < length b)%nat -> (nth pos b 0 =? 13) && (nth (pos + 1) b 0 =? 10) = false ->
  crlfAt (skipn (pos + 1) b) = None -> forall fuel params, headerLoop fuel b pos params = HNoEnd.
Proof.
  intros L C N. induction fuel; intros params; [reflexivity|]. cbn [headerLoop]. replace (Nat.ltb (pos + 1) (length b)) with true by lia.
  rewrite C, N. apply IHfuel.
Qed.

Lemma crlfAt_none l : Forall (fun c => c <> 13) l -> crlfAt l = None.
Proof.
  induction 1 as [|a l H F IH]; [reflexivity|]. destruct l as [|b l]; [reflexivity|].
  change (crlfAt (a :: b :: l)) with (if (a =? 13) && (b =? 10) then Some O else match crlfAt (b :: l) with Some k => Some (S k) | None => None end).
  replace (a =? 13) with false by lia. cbn [andb]. now rewrite IH.
Qed.

Lemma crlfAt_sound l : forall k, crlfAt l = Some k -> (k + 1 < length l)%nat /\ nth k l 0 = 13 /\ nth (k + 1) l 0 = 10 /\
  forall j, (j < k)%nat -> ~ (nth j l 0 = 13 /\ nth (j + 1) l 0 = 10).
Proof.
  induction l as [|a l IH]; intros k E; [discriminate|]. destruct l as [|b l]; [discriminate|].
  change (crlfAt (a :: b :: l)) with (if (a =? 13) && (b =? 10) then Some O else match crlfAt (b :: l) with Some k => Some (S k) | None => None end) in E.
  destruct ((a =? 13) && (b =? 10)) eqn:C.
  - injection E as <-. apply andb_prop in C as [C1 C2]. cbn. repeat split; try lia.
  - destruct (crlfAt (b :: l)) as [k'|] eqn:E'; [|discriminate]. injection E as <-. destruct (IH k' eq_refl) as (A & B & D & F).
    refine (conj _ (conj _ (conj _ _))).
    + cbn [length] in *. lia.
    + exact B.
    + exact D.
    + intros j J. destruct j as [|j].
      * cbn. apply andb_false_iff in C. lia.
      * apply (F j). lia.
Qed.

Lemma crlfAt_complete l k : (k + 1 < length l)%nat -> nth k l 0 = 13 -> nth (k + 1) l 0 = 10 -> exists j, crlfAt l = Some j /\ (j <= k)%nat.
Proof.
  revert k. induction l as [|a l IH]; intros k L A B; [cbn in L; lia|]. destruct l as [|b l]; [cbn in L; lia|].
  change (crlfAt (a :: b :: l)) with (if (a =? 13) && (b =? 10) then Some O else match crlfAt (b :: l) with Some k => Some (S k) | None => None end).
  destruct ((a =? 13) && (b =? 10)) eqn:C; [exists O; split; [reflexivity|lia]|].
  destruct k as [|k].
  - cbn in A, B. exfalso. lia.
  - destruct (IH k) as (j & E & J); [cbn [length] in *; lia|exact A|exact B|]. rewrite E. exists (S j). split; [reflexivity|lia].
Qed.

(** A CR LF CR LF anywhere ends the loop. *)
Lemma header_ends b q : (q + 3 < length b)%nat -> nth q b 0 = 13 -> nth (q + 1) b 0 = 10 -> nth (q + 2) b 0 = 13 -> nth (q + 3) b 0 = 10 ->
  forall fuel pos params, (pos <= q \/ pos = q + 2)%nat -> (q + 2 < fuel + pos)%nat ->
  exists r, headerLoop fuel b pos params = HVal r.
Proof.
  intros L A B C D. induction fuel; intros pos params P F; [lia|]. cbn [headerLoop]. replace (Nat.ltb (pos + 1) (length b)) with true by lia.
  destruct ((nth pos b 0 =? 13) && (nth (pos + 1) b 0 =? 10)) eqn:E; [eauto|].
  assert (NQ : (pos < q)%nat).
  { destruct P as [P|P].
    - destruct (Nat.eq_dec pos q) as [->|]; [rewrite A, B in E; discriminate|lia].
    - subst pos. replace (q + 2 + 1)%nat with (q + 3)%nat in E by lia. rewrite C, D in E. discriminate. }
  assert (SK : forall i, nth i (skipn (pos + 1) b) 0 = nth (pos + 1 + i) b 0).
  { intros i. rewrite <- (firstn_skipn (pos + 1) b) at 2. rewrite app_nth2; rewrite firstn_length; [|lia]. f_equal. lia. }
  destruct (crlfAt_complete (skipn (pos + 1) b) (q - (pos + 1))) as (k & EK & K).
  { rewrite skipn_length. lia. }
  { rewrite SK. replace (pos + 1 + (q - (pos + 1)))%nat with q by lia. exact A. }
  { rewrite SK. replace (pos + 1 + (q - (pos + 1) + 1))%nat with (q + 1)%nat by lia. exact B. }
  rewrite EK. apply crlfAt_sound in EK as (K1 & K2 & K3 & _). rewrite SK in K2, K3.
  apply IHfuel; [|lia]. destruct (Nat.eq_dec (pos + 1 + k) q); [right; lia|left].
  destruct (Nat.eq_dec (pos + 1 + k + 1) q) as [Eq|]; [|lia].
  replace (pos + 1 + (k + 1))%nat with q in K3 by lia. lia.
Qed.

(** ** Parameters *)

Lemma hUpper_upper c : hUpper c = upper c.
Proof. reflexivity. Qed.

Definition other (f : list Z * list Z) : Prop := ~ named contentLength f /\ ~ named transferEncoding f.

Lemma useParam_other fuel m b f st : other f -> useParam fuel m b f st = HVal st.
Proof.
  intros [A B]. destruct st as [s n]. unfold useParam, named in *.
  assert (E1 : list_eqb (map hUpper (fst f)) kContentLength = false) by (destruct (list_eqb _ _) eqn:E; [apply list_eqb_spec in E; contradiction|reflexivity]).
  assert (E2 : list_eqb (map hUpper (fst f)) kTransferEncoding = false) by (clear E1; destruct (list_eqb _ _) eqn:E; [apply list_eqb_spec in E; contradiction|reflexivity]).
  rewrite E1, E2. cbn [andb hbind]. rewrite andb_false_r. reflexivity.
Qed.

Lemma useParams_other fuel m b fs : Forall other fs -> forall st rest, useParams fuel m b (fs ++ rest) st = useParams fuel m b rest st.
Proof.
  induction 1 as [|f fs H _ IH]; intros st rest; [reflexivity|]. cbn [app useParams]. rewrite useParam_other by assumption. cbn. apply IH.
Qed.

Lemma status_other s : status_ok s -> other (s, []).
Proof.
  intros (_ & _ & H). unfold other, named. cbn [fst]. split; intros E.
  - destruct s as [|a s]; [discriminate|]. cbn in E. injection E as E _. cbn in H. destruct H as [H|H]; injection H as -> _; discriminate.
  - destruct s as [|a [|a2 s]]; try discriminate. cbn in E. injection E as E _. cbn in H. destruct H as [H|H]; injection H as -> _; discriminate.
Qed.

Lemma digits_upper d : forallb isDigit d = true -> map hUpper d = d.
Proof.
  induction d as [|c d IH]; intros H; [reflexivity|]. cbn in H. apply andb_prop in H as [H1 H2]. cbn [map]. rewrite IH by assumption. f_equal.
  apply isDigit_range in H1. unfold hUpper. replace (97 <=? c) with false by lia. reflexivity.
Qed.

Lemma stoul_toString n : 0 <= n < 18446744073709551616 -> stoul (toString n) = HVal n.
Proof.
  intros H. unfold stoul. rewrite strtoz_toString by (reflexivity || lia).
  destruct (toString_ok n ltac:(lia)) as (_ & _ & N). destruct (toString n) as [|c t]; [congruence|]. cbn [length].
  replace (18446744073709551615 <? Z.abs n) with false by lia. unfold u64. now rewrite Z.mod_small.
Qed.

Lemma useParam_length fuel m b f n s0 : named contentLength f -> snd f = toString n -> 0 <= n < 4294967296 ->
  useParam fuel m b f (s0, 0) = HVal (s0, n).
Proof.
  intros N V H. unfold useParam, named in *. change (map hUpper (fst f)) with (map upper (fst f)). rewrite N.
  change (list_eqb contentLength kContentLength) with true. change (list_eqb contentLength kTransferEncoding) with false.
  destruct (toString_ok n ltac:(lia)) as (_ & D & NE). rewrite V, (digits_upper _ D).
  destruct (toString n) as [|c t] eqn:E; [congruence|]. cbn [andb negb]. rewrite <- E. rewrite stoul_toString by lia. cbn [hbind].
  unfold u32. rewrite Z.mod_small by lia. rewrite andb_false_r. reflexivity.
Qed.

(** ** Whole responses *)

Lemma field_line f : field_ok f -> plain (field_text f) /\ field_text f <> [].
Proof.
  intros (A & B & _). unfold field_text. split; [|destruct (fst f); discriminate].
  apply Forall_app. split; [exact A|]. apply Forall_app. split; [|exact B]. repeat constructor; lia.
Qed.

Lemma status_line s : status_ok s -> plain s /\ s <> [].
Proof. intros (A & _ & H). split; [exact A|]. intros ->. cbn in H. destruct H; discriminate. Qed.

Lemma concat_lines fs : concat (map (fun f => field_text f ++ crlf) fs) = lines_text (map field_text fs).
Proof. unfold lines_text. rewrite map_map. reflexivity. Qed.

Lemma header_text_lines s fs : header_text s fs = lines_text (s :: map field_text fs) ++ crlf.
Proof. unfold header_text. rewrite concat_lines. unfold lines_text. cbn [map concat]. now rewrite <- !app_assoc. Qed.

Lemma map_split fs : Forall field_ok fs -> map splitLine (map field_text fs) = fs.
Proof. induction 1 as [|f fs H _ IH]; [reflexivity|]. cbn. now rewrite splitLine_field, IH. Qed.

Lemma header_loop_ok s fs body fuel : status_ok s -> Forall field_ok fs -> (length fs + 1 < fuel)%nat ->
  zlen (header_text s fs) < 4294967296 ->
  headerLoop fuel (header_text s fs ++ body) 0 [] = HVal (zlen (header_text s fs), (s, []) :: fs).
Proof.
  intros Hs Hf F Z. set (ls := s :: map field_text fs).
  assert (LO : Forall (fun l => plain l /\ l <> []) ls).
  { constructor; [now apply status_line|]. apply Forall_map. revert Hf. apply Forall_impl. intros f. apply field_line. }
  assert (LL : length ls = S (length fs)) by (unfold ls; cbn; now rewrite map_length).
  rewrite header_text_lines in *. fold ls in Z |- *. rewrite <- app_assoc.
  replace fuel with (length ls + S (fuel - length ls - 1))%nat by lia.
  pose proof (header_lines ls LO (S (fuel - length ls - 1)) [] (crlf ++ body) []) as X. cbn [app length Nat.add] in X. rewrite X.
  rewrite header_end. f_equal. unfold zlen in *. rewrite app_length in *. cbn [crlf length] in *. f_equal.
  - unfold u32. rewrite Z.mod_small; lia.
  - unfold ls. cbn [map]. rewrite map_split by assumption. f_equal. apply splitLine_status. apply Hs.
Qed.

Lemma http_prefix s fs body : status_ok s ->
  (zlen (header_text s fs ++ body) <? 4) || negb (list_eqb (firstn 4 (header_text s fs ++ body)) [72;84;84;80] || list_eqb (firstn 4 (header_text s fs ++ body)) [104;116;116;112]) = false.
Proof.
  intros (_ & _ & H). assert (L : (4 <= length s)%nat).
  { destruct H as [H|H]; apply (f_equal (@length Z)) in H; rewrite firstn_length in H; cbn [length] in H; lia. }
  unfold header_text, zlen. rewrite !app_length. replace (Z.of_nat _ <? 4) with false by lia. cbn [orb].
  
  assert (P : forall t, firstn 4 (s ++ t) = firstn 4 s) by (intros t; rewrite firstn_app; replace (4 - length s)%nat with O by lia; apply app_nil_r).
  rewrite <- !app_assoc, !P.
  destruct H as [-> | ->]; reflexivity.
Qed.

Definition upperParams (l : list (list Z * list Z)) := map (fun p => (map upper (fst p), map upper (snd p))) l.

Lemma readHttp_ok s fs body m fuel start size : status_ok s -> Forall field_ok fs -> (length fs + 1 < fuel)%nat ->
  zlen (header_text s fs) < 4294967296 ->
  useParams fuel m (header_text s fs ++ body) ((s, []) :: fs) (zlen (header_text s fs), 0) = HVal (start, size) ->
  readHttp fuel m (header_text s fs ++ body) = HVal
    {| hvalid := negb (negb (start =? 0) && negb (negb (size =? 0) || (zlen (header_text s fs ++ body) =? start)));
       hsuccess := contains k200OK (map upper s); hdataStart := start; hdataSize := size; hparams := upperParams ((s, []) :: fs) |}.
Proof.
  intros Hs Hf F Z U. unfold readHttp. rewrite http_prefix by assumption.
  rewrite header_loop_ok by assumption. cbn [hbind]. rewrite U. cbn [hbind map]. reflexivity.
Qed.

(** ** Chunks *)

Lemma hexDigit_spec c : is_hex c -> hexDigit c = Some (hex_digit_value c).
Proof.
  unfold is_hex, hexDigit, hex_digit_value. intros H.
  destruct ((48 <=? c) && (c <=? 57)) eqn:E1; [replace (c <=? 57) with true by lia; reflexivity|].
  destruct ((65 <=? c) && (c <=? 70)) eqn:E2; [replace (c <=? 57) with false by lia; replace (c <=? 70) with true by lia; reflexivity|].
  replace ((97 <=? c) && (c <=? 102)) with true by lia. replace (c <=? 57) with false by lia. replace (c <=? 70) with false by lia. reflexivity.
Qed.

Lemma readHex_ok h : Forall is_hex h -> forall acc c r, hexDigit c = None ->
  readHex (h ++ c :: r) acc = Some (fold_left (fun a c => a * 16 + hex_digit_value c) h acc).
Proof.
  induction 1 as [|x h H _ IH]; intros acc c r Hc; cbn; [now rewrite Hc|]. rewrite hexDigit_spec by assumption. now apply IH.
Qed.

Lemma hex_bounds c : is_hex c -> (c =? 45) = false /\ (c =? 43) = false /\ isSpace c = false /\ c <> 120 /\ c <> 88 /\ c <> 13.
Proof. unfold is_hex, isSpace. intros H. repeat split; lia. Qed.

Lemma strtoul16_ok h r : Forall is_hex h -> h <> [] -> hex_value h < 18446744073709551616 -> 0 <= hex_value h -> strtoul16 (h ++ 13 :: r) = Some (hex_value h).
Proof.
  intros H N V V0. destruct h as [|c h]; [congruence|]. inversion H as [|? ? Hc Hh]; subst.
  destruct (hex_bounds c Hc) as (B1 & B2 & B3 & _). unfold strtoul16. cbn [app skipSpaces]. rewrite B3, B1, B2.
  assert (E : skip0x (c :: h ++ 13 :: r) = c :: h ++ 13 :: r).
  { unfold skip0x. destruct h as [|x h]; cbn [app].
    - destruct r; [reflexivity|]. cbn. now rewrite andb_false_r.
    - inversion Hh as [|? ? Hx _]; subst. destruct (hex_bounds x Hx) as (_ & _ & _ & X1 & X2 & _).
      replace (x =? 120) with false by lia. replace (x =? 88) with false by lia. cbn [orb]. rewrite andb_false_r. cbn [andb].
      now destruct (h ++ 13 :: r). }
  rewrite E. clear E.
change (c :: h ++ 13 :: r) with ((c :: h) ++ 13 :: r). rewrite readHex_ok by (assumption || reflexivity).
  fold (hex_value (c :: h)). replace (18446744073709551615 <? hex_value (c :: h)) with false by lia. unfold u64. rewrite Z.mod_small by lia. reflexivity.
Qed.

(** With a zero byte behind the buffer no number is read past the memory, and chunks already
    found stay. *)
Lemma skipSpaces_zero l r : forall n, exists c t k, skipSpaces (l ++ 0 :: r) n = (c :: t, k) /\ exists l', c :: t = l' ++ 0 :: r.
Proof.
  induction l as [|a l IH]; intros n.
  - cbn. exists 0, r, n. split; [reflexivity|]. now exists [].
  - cbn. destruct (isSpace a); [apply IH|]. exists a, (l ++ 0 :: r), n. split; [reflexivity|]. now exists (a :: l).
Qed.

Lemma readHex_zero l r : forall acc, exists v, readHex (l ++ 0 :: r) acc = Some v.
Proof.
  induction l as [|a l IH]; intros acc; cbn; [eauto|]. destruct (hexDigit a); [apply IH|eauto].
Qed.

Lemma strtoul16_zero l r : exists v, strtoul16 (l ++ 0 :: r) = Some v.
Proof.
  unfold strtoul16. destruct (skipSpaces_zero l r 0) as (c & t & k & -> & l' & E).
  assert (G : forall neg x, (exists y, x = y ++ 0 :: r) -> exists v,
    match readHex (skip0x x) 0 with
    | None => None | Some v => Some (if 18446744073709551615 <? v then 18446744073709551615 else u64 (if neg : bool then - v else v)) end = Some v).
  { intros neg x (y & ->).
    assert (Q : exists y', skip0x (y ++ 0 :: r) = y' ++ 0 :: r).
    { unfold skip0x. destruct y as [|a [|x [|d y]]]; cbn [app].
      - destruct r as [|? [|? ?]]; [now exists []|now exists []|]. now exists [].
      - destruct r as [|? ?]; [now exists [a]|]. cbn. rewrite andb_false_r. now exists [a].
      - change (isHex 0) with false. rewrite andb_false_r. now exists [a; x].
      - destruct ((a =? 48) && _ && _); [now exists (d :: y)|now exists (a :: x :: d :: y)]. }
    destruct Q as (y' & ->). destruct (readHex_zero y' r 0) as (v & ->). eauto. }
  destruct (c =? 45) eqn:C45.
  { apply (G true). destruct l' as [|z l']; [cbn in E; injection E as -> _; discriminate|]. injection E as _ ->. eauto. }
  destruct (c =? 43) eqn:C43.
  { apply (G false). destruct l' as [|z l']; [cbn in E; injection E as -> _; discriminate|]. injection E as _ ->. eauto. }
  apply (G false). eauto.
Qed.

Lemma chunkLoop_ends fuel : forall r l off cs chunks, (length l < fuel)%nat ->
  exists more, chunkLoop fuel (0 :: r) l off cs chunks = HVal (chunks ++ more).
Proof.
  induction fuel; intros r l off cs chunks F; [lia|]. cbn [chunkLoop]. destruct l as [|a l]; [exists []; now rewrite app_nil_r|].
  set (pos := match crlfAt (a :: l) with Some k => k | None => (length (a :: l) - 1)%nat end).
  assert (G : forall cs' ch, exists more, chunkLoop fuel (0 :: r) (skipn (pos + 2) (a :: l)) (off + Z.of_nat pos + 2) cs' ch = HVal (ch ++ more)).
  { intros cs' ch. apply IHfuel. rewrite skipn_length. cbn [length] in *. lia. }
  destruct pos eqn:P; [apply G|].
  destruct (cs =? 0).
  - destruct (strtoul16_zero (a :: l) r) as (v & ->). apply G.
  - destruct (G 0 (chunks ++ [(u32 off, cs)])) as (more & E). rewrite E. exists ([(u32 off, cs)] ++ more). now rewrite app_assoc.
Qed.

(** The first chunk. *)
Lemma first_chunk fuel r pre h d rest : Forall is_hex h -> h <> [] -> 0 < hex_value h < 4294967296 ->
  d <> [] -> (match d with [13] => False | 13 :: 10 :: _ => False | _ => True end) ->
  zlen pre + zlen h + 2 < 4294967296 -> (length (chunk_text h d ++ rest) < fuel)%nat ->
  exists more, readChunkedData fuel (0 :: r) (pre ++ chunk_text h d ++ rest) (zlen pre) = HVal ((zlen pre + zlen h + 2, hex_value h) :: more).
Proof.
  intros H N V ND D0 Z F. unfold readChunkedData, zlen. rewrite Nat2Z.id, skipn_app_len by reflexivity.
  unfold chunk_text in *. rewrite <- !app_assoc in *. destruct fuel as [|fuel]; [lia|]. cbn [chunkLoop].
  destruct (h ++ crlf ++ d ++ crlf ++ rest) as [|a0 l0] eqn:EL; [destruct h; discriminate|]. rewrite <- EL in *. clear a0 l0 EL.
  assert (PC : Forall (fun c => c <> 13) h) by (revert H; apply Forall_impl; intros c Hc; now apply hex_bounds in Hc).
  cbn [crlf app] in *. rewrite crlfAt_plain by assumption.
  destruct (length h) as [|k] eqn:LH; [destruct h; [congruence|discriminate]|]. rewrite <- LH in *. change (0 =? 0) with true. cbn iota.
  rewrite <- app_assoc. cbn [app]. rewrite strtoul16_ok by (assumption || lia).
  replace (skipn (length h + 2) (h ++ 13 :: 10 :: d ++ 13 :: 10 :: rest)) with (d ++ 13 :: 10 :: rest) by (rewrite skipn_app_at; reflexivity).
  unfold u32 at 1. rewrite (Z.mod_small (hex_value h)) by lia.
  rewrite !app_length in F. cbn [length] in F. rewrite app_length in F.
  destruct fuel as [|fuel]; [lia|]. cbn [chunkLoop]. destruct (d ++ 13 :: 10 :: rest) as [|a0 l0] eqn:EL; [destruct d; discriminate|].
  set (pos := match crlfAt (a0 :: l0) with Some k => k | None => (length (a0 :: l0) - 1)%nat end).
  assert (PP : (0 < pos)%nat).
  { unfold pos. destruct d as [|x d]; [congruence|]. cbn in EL. injection EL as <- E0. destruct l0 as [|y l0]; [destruct d; discriminate|].
    change (crlfAt (x :: y :: l0)) with (if (x =? 13) && (y =? 10) then Some O else match crlfAt (y :: l0) with Some k => Some (S k) | None => None end).
    destruct ((x =? 13) && (y =? 10)) eqn:C.
    - exfalso. assert (x = 13) by lia. assert (y = 10) by lia. subst x y. destruct d as [|z d]; [now apply D0|]. cbn in E0. injection E0 as -> _. now apply D0.
    - destruct (crlfAt (y :: l0)); cbn [length]; lia. }
  assert (LE : (length (a0 :: l0) = length d + (2 + length rest))%nat) by (rewrite <- EL, app_length; reflexivity).
  destruct pos as [|pos'] eqn:EP; [lia|]. replace (hex_value h =? 0) with false by lia.
  destruct (chunkLoop_ends fuel r (skipn (S pos' + 2) (a0 :: l0)) (Z.of_nat (length pre) + Z.of_nat (length h) + 2 + Z.of_nat (S pos') + 2) 0
             ([] ++ [(u32 (Z.of_nat (length pre) + Z.of_nat (length h) + 2), hex_value h)])) as (more & E).
  { rewrite skipn_length. rewrite LE. cbn [length] in F. lia. }
  rewrite E. exists more. cbn [app]. unfold zlen in Z. unfold u32. rewrite Z.mod_small by lia. reflexivity.
Qed.

Lemma useParam_chunked fuel m b f s0 s n more : named transferEncoding f -> map upper (snd f) = chunked ->
  readChunkedData fuel m b s0 = HVal ((s, n) :: more) -> useParam fuel m b f (s0, 0) = HVal (s, n).
Proof.
  intros N V C. unfold useParam, named in *. change (map hUpper (fst f)) with (map upper (fst f)). change (map hUpper (snd f)) with (map upper (snd f)). rewrite N, V.
  change (list_eqb transferEncoding kContentLength) with false. change (list_eqb transferEncoding kTransferEncoding) with true.
  change (list_eqb chunked kChunked) with true. change (0 =? 0) with true. cbn [andb negb hbind]. rewrite C. reflexivity.
Qed.
