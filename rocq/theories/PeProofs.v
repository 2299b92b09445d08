From Verif Require Import Base BaseLemmas Rc4Model Rc4Proofs ShaModel ShaSpec ShaProps BigProofs BigProofs2 PeModel.

#[global] Opaque SHA1.

Definition secret_ok (s : list Z) : Prop := length s = 96%nat /\ bytes_ok s.
Definition hash_ok (t : list Z) : Prop := length t = 20%nat /\ bytes_ok t.

Lemma SHA1_length d : bytes_ok d -> 8 * zlen d < 2 ^ 64 -> length (SHA1 d) = 20%nat.
Proof. intros B L. rewrite (C48_sha1 d B L). unfold sha1. destruct (fold_left _ _ _). reflexivity. Qed.

Lemma tag_bytes d l : 0 <= d < 256 -> bytes_ok l -> bytes_ok (tagReq d ++ l).
Proof.
  intros D B. unfold bytes_ok, tagReq. apply Forall_app. split; [|exact B].
  repeat constructor; lia.
Qed.

Lemma sha_req d l : 0 <= d < 256 -> bytes_ok l -> (length l <= 96)%nat -> length (SHA1 (tagReq d ++ l)) = 20%nat.
Proof.
  intros D B L. apply SHA1_length; [now apply tag_bytes|]. unfold zlen. rewrite app_length. cbn [length tagReq]. lia.
Qed.

Lemma xorBytes_length a : forall b, length a = length b -> length (xorBytes a b) = length a.
Proof. induction a as [|x a IH]; intros [|y b] L; cbn in *; try lia. rewrite IH; lia. Qed.

Lemma xorBytes_nth a : forall b i, length a = length b -> (i < length a)%nat -> nth i (xorBytes a b) 0 = Z.lxor (nth i a 0) (nth i b 0).
Proof.
  induction a as [|x a IH]; intros [|y b] i L H; cbn in L; try (cbn in H; lia).
  destruct i as [|i]; [reflexivity|]. cbn [xorBytes nth]. apply IH; cbn in H; lia.
Qed.

(** RC4 on pieces. *)
Lemma decode_cut st d n st' r : rc4_decode st d = (st', r) ->
  exists s1, rc4_decode st (firstn n d) = (s1, firstn n r) /\ rc4_decode s1 (skipn n d) = (st', skipn n r).
Proof.
  intros H. rewrite <- (firstn_skipn n d) in H. rewrite rc4_decode_app in H.
  destruct (rc4_decode st (firstn n d)) as [s1 ra] eqn:E1. destruct (rc4_decode s1 (skipn n d)) as [s2 rb] eqn:E2.
  injection H as <- <-. exists s1.
  pose proof (decodeLoop_length (firstn n d) (maskIdx st)) as L1. unfold rc4_decode in E1. rewrite E1 in L1. cbn [snd] in L1.
  pose proof (decodeLoop_length (skipn n d) (maskIdx s1)) as L2. unfold rc4_decode in E2. rewrite E2 in L2. cbn [snd] in L2.
  rewrite firstn_length in L1. rewrite skipn_length in L2.
  destruct (Nat.le_gt_cases (length d) n) as [G|G].
  - rewrite skipn_all2 with (n := n) (l := d) in E2 by lia. cbn in E2. injection E2 as <- <-. rewrite app_nil_r.
    rewrite firstn_all2 with (l := ra) by lia. rewrite (skipn_all2 (n := n) d) by lia. rewrite (skipn_all2 (n := n) ra) by lia.
    split; reflexivity.
  - replace n with (length ra) by lia. rewrite firstn_app_exact, skipn_app_exact.
    replace (length ra) with n by lia. split; [reflexivity|exact E2].
Qed.

Lemma decode_length st d st' r : rc4_decode st d = (st', r) -> length r = length d.
Proof. intros H. pose proof (decodeLoop_length d (maskIdx st)) as L. unfold rc4_decode in H. rewrite H in L. exact L. Qed.

Lemma skip_by st d st' r n : rc4_decode st d = (st', r) -> n = length d -> rc4_skip st n = st'.
Proof. intros H ->. rewrite rc4_skip_decode, H. reflexivity. Qed.

Lemma encode_len st d : length (snd (rc4_encode st d)) = length d.
Proof. apply decodeLoop_length. Qed.

Lemma decode_mask a b d : maskIdx a = maskIdx b -> rc4_decode a d = rc4_decode b d.
Proof. intros E. unfold rc4_decode. rewrite E. reflexivity. Qed.

Lemma decode_nil st : rc4_decode st [] = (maskIdx st, []).
Proof. reflexivity. Qed.

Lemma mask_mask st : maskIdx (maskIdx st) = maskIdx st.
Proof. apply maskIdx_id, wf_mask. Qed.

#[global] Opaque rcStart rc4_encode rc4_decode.

(** The search. *)
Definition occurs (pat : list Z) (k : nat) (d : list Z) : Prop := firstn (length pat) (skipn k d) = pat.

Lemma searchLoop_some n : forall rest pat pos p, searchLoop n rest pat pos = Some p ->
  exists k, p = (pos + k)%nat /\ (k < n)%nat /\ occurs pat k rest /\ forall j, (j < k)%nat -> ~ occurs pat j rest.
Proof.
  induction n as [|n IH]; intros rest pat pos p H; [discriminate H|]. cbn [searchLoop] in H.
  destruct (list_eqb (firstn (length pat) rest) pat) eqn:E.
  - injection H as <-. exists 0%nat. apply list_eqb_spec in E. repeat split; try lia. exact E.
  - destruct (IH _ _ _ _ H) as (k & -> & K & O & F). exists (S k). split; [lia|]. split; [lia|].
    split.
    + unfold occurs in *. rewrite skip_skip in O. exact O.
    + intros [|j] J; unfold occurs; [cbn [skipn]; intros X; rewrite X, list_eqb_refl in E; discriminate E|].
      intros X. apply (F j); [lia|]. unfold occurs. rewrite skip_skip. exact X.
Qed.

Lemma searchLoop_first n : forall rest pat pos k, (k < n)%nat -> occurs pat k rest ->
  (forall j, (j < k)%nat -> ~ occurs pat j rest) -> searchLoop n rest pat pos = Some (pos + k)%nat.
Proof.
  induction n as [|n IH]; intros rest pat pos k K O F; [lia|]. cbn [searchLoop].
  destruct k as [|k].
  - unfold occurs in O. cbn [skipn] in O. rewrite O, list_eqb_refl. f_equal. lia.
  - destruct (list_eqb (firstn (length pat) rest) pat) eqn:E.
    + apply list_eqb_spec in E. exfalso. apply (F 0%nat); [lia|]. exact E.
    + rewrite (IH (skipn 1 rest) pat (S pos) k); [f_equal; lia|lia| |].
      * unfold occurs. rewrite skip_skip. exact O.
      * intros j J X. apply (F (S j)); [lia|]. unfold occurs in *. rewrite skip_skip in X. exact X.
Qed.

Lemma searchLoop_none n : forall rest pat pos, searchLoop n rest pat pos = None -> forall k, (k < n)%nat -> ~ occurs pat k rest.
Proof.
  induction n as [|n IH]; intros rest pat pos H k K; [lia|]. cbn [searchLoop] in H.
  destruct (list_eqb (firstn (length pat) rest) pat) eqn:E; [discriminate H|].
  destruct k as [|k]; intros O.
  - unfold occurs in O. cbn [skipn] in O. rewrite O, list_eqb_refl in E. discriminate E.
  - apply (IH _ _ _ H k); [lia|]. unfold occurs in *. rewrite skip_skip. exact O.
Qed.

(** Occurrences in a prefix of the data. *)
Lemma occurs_prefix pat k d m : (k + length pat <= m)%nat -> (occurs pat k (firstn m d) <-> occurs pat k d).
Proof.
  intros L. unfold occurs. rewrite skipn_firstn_comm, firstn_firstn. replace (Nat.min (length pat) (m - k)) with (length pat) by lia. reflexivity.
Qed.

(** The lookup. *)
Lemma sameLoop_spec n : forall data r2 r3 i,
  sameLoop n data r2 r3 i = true <-> forall j, (i <= j < i + n)%nat -> nth j data 0 <> Z.lxor (nth j r2 0) (nth j r3 0).
Proof.
  induction n as [|n IH]; intros data r2 r3 i; cbn [sameLoop]; [split; [intros; lia|reflexivity]|].
  destruct (nth i data 0 =? Z.lxor (nth i r2 0) (nth i r3 0)) eqn:E; cbn [negb].
  - split; [discriminate|]. intros H. exfalso. apply (H i); [lia|]. lia.
  - rewrite IH. split; intros H j J; [|apply H; lia].
    destruct (Nat.eq_dec j i) as [->|N]; [lia|apply H; lia].
Qed.

Lemma find_in ts data r3 t : findByPe3Hash ts data r3 = Some t -> In t ts.
Proof.
  induction ts as [|x ts IH]; cbn [findByPe3Hash]; [discriminate|].
  destruct (sameLoop _ _ _ _ _); [intros [= ->]; now left|right; auto].
Qed.

Lemma sameLoop_ext n : forall d1 d2 r2 r3 i, (forall j, (i <= j < i + n)%nat -> nth j d1 0 = nth j d2 0) ->
  sameLoop n d1 r2 r3 i = sameLoop n d2 r2 r3 i.
Proof.
  induction n as [|n IH]; intros d1 d2 r2 r3 i H; cbn [sameLoop]; [reflexivity|].
  rewrite (H i) by lia. destruct (negb _); [|reflexivity]. apply IH. intros j J. apply H. lia.
Qed.

Lemma find_ext ts d1 d2 r3 : (forall j, (j < 20)%nat -> nth j d1 0 = nth j d2 0) -> findByPe3Hash ts d1 r3 = findByPe3Hash ts d2 r3.
Proof.
  intros H. induction ts as [|t ts IH]; cbn [findByPe3Hash]; [reflexivity|].
  rewrite (sameLoop_ext 20 d1 d2) by (intros; apply H; lia). now rewrite IH.
Qed.

Lemma nth_firstn_Z (l : list Z) : forall n j, (j < n)%nat -> nth j (firstn n l) 0 = nth j l 0.
Proof.
  induction l as [|x l IH]; intros n j H; [now rewrite firstn_nil|].
  destruct n as [|n]; [lia|]. destruct j as [|j]; [reflexivity|]. cbn. apply IH. lia.
Qed.

Lemma encode_decode st d : rc4_decode st (snd (rc4_encode st d)) = (fst (rc4_encode st d), d).
Proof. apply rc4_invol. apply surjective_pairing. Qed.

(** Reading message 3, or a prefix of it, when the lookup answers [info]. *)
Section Read3.
  Variables (secret info padding message p0 body : list Z) (out : rc4) (torrents : list (list Z)).
  Let plain := pe3Plain padding message.
  Let whole := p0 ++ SHA1 (tagReq 49 ++ secret) ++ xorBytes (SHA1 (tagReq 51 ++ secret)) (req2Hash info) ++ body.
  Hypothesis S96 : secret_ok secret.
  Hypothesis H20 : hash_ok info.
  Hypothesis Pad : zlen padding < 65536.
  Hypothesis Msg : zlen message < 65536.
  Hypothesis First : forall k, (k < length p0)%nat -> ~ occurs (SHA1 (tagReq 49 ++ secret)) k whole.
  Hypothesis Look : findByPe3Hash torrents (xorBytes (SHA1 (tagReq 51 ++ secret)) (req2Hash info)) (tagReq 51 ++ secret) = Some info.
  Hypothesis body_dec : rc4_decode (rcStart invokerA secret info) body = (out, plain).

  Lemma len1 : length (SHA1 (tagReq 49 ++ secret)) = 20%nat.
  Proof using S96. destruct S96 as [L B]. apply sha_req; try lia. exact B. Qed.
  Lemma len2 : length (xorBytes (SHA1 (tagReq 51 ++ secret)) (req2Hash info)) = 20%nat.
  Proof using S96 H20 Look body_dec.
    destruct S96 as [L B]. destruct H20 as [L' B'].
    assert (E : length (SHA1 (tagReq 51 ++ secret)) = 20%nat) by (apply sha_req; try lia; exact B).
    rewrite xorBytes_length; [exact E|]. rewrite E. symmetry. unfold req2Hash. apply sha_req; try lia; exact B'.
  Qed.

  Lemma plain_len : length plain = (16 + length padding + length message)%nat.
  Proof using. unfold plain, pe3Plain. rewrite !app_length, repeat_length, !be_length. lia. Qed.

  Lemma body_len : length body = (16 + length padding + length message)%nat.
  Proof using body_dec. rewrite <- plain_len. symmetry. exact (decode_length _ _ _ _ body_dec). Qed.

  Lemma whole_len : length whole = (length p0 + 56 + length padding + length message)%nat.
  Proof using S96 H20 Look body_dec. unfold whole. rewrite !app_length, len1, len2, body_len. lia. Qed.

  Lemma whole_at20 : skipn (length p0 + 20) whole = xorBytes (SHA1 (tagReq 51 ++ secret)) (req2Hash info) ++ body.
  Proof using S96 H20 Look body_dec. unfold whole. rewrite <- skip_skip, skipn_app_exact. rewrite <- len1, skipn_app_exact. reflexivity. Qed.

  Lemma whole_at40 : skipn (length p0 + 40) whole = body.
  Proof using S96 H20 Look body_dec.
    replace (length p0 + 40)%nat with (length p0 + 20 + 20)%nat by lia. rewrite <- skip_skip, whole_at20.
    rewrite <- len2. apply skipn_app_exact.
  Qed.

  Lemma occurs_here : occurs (SHA1 (tagReq 49 ++ secret)) (length p0) whole.
  Proof using. unfold occurs, whole. rewrite skipn_app_exact. apply firstn_app_exact. Qed.

  Lemma look_whole m : (length p0 + 40 <= m)%nat -> (m <= length whole)%nat ->
    findByPe3Hash torrents (skipn (length p0 + 20) (firstn m whole)) (tagReq 51 ++ secret) = Some info.
  Proof using S96 H20 Look body_dec.
    intros M1 M2. clear First. rewrite <- Look. apply find_ext. intros j J.
    rewrite skipn_firstn_comm, nth_firstn_Z by lia. rewrite whole_at20.
    rewrite app_nth1 by (rewrite len2; lia). reflexivity.
  Qed.

  Lemma options3 : peOptions 3 = Some TypeRC4. Proof using. reflexivity. Qed.

  Lemma plain_head n : (14 <= n)%nat -> exists x, firstn n plain = (repeat 0 8 ++ be 4 3 ++ be 2 (zlen padding)) ++ x.
  Proof using.
    intros N. clear First. unfold plain, pe3Plain. exists (firstn (n - 14) (padding ++ be 2 (u16 (zlen message)) ++ message)).
    rewrite (app_assoc (repeat 0 8)), (app_assoc (repeat 0 8 ++ be 4 3)). rewrite <- (app_assoc (repeat 0 8) (be 4 3)).
    rewrite firstn_app. rewrite firstn_all2 by (rewrite !app_length, repeat_length, !be_length; lia).
    reflexivity.
  Qed.

  (** A prefix of what was sent that ends before its last byte is waited on; the whole of it
      establishes the connection. *)
  Lemma readPe3_prefix m : (m <= length whole)%nat ->
    readPe3 secret torrents (firstn m whole) =
    if (m =? length whole)%nat then Pe3Done info TypeRC4 out (rcStart invokerB secret info) message
    else Pe3Wait (if (length p0 + 56 <=? m)%nat then length p0 else 0%nat).
  Proof using All.
    intros M. unfold readPe3. rewrite firstn_length. replace (Nat.min m (length whole)) with m by lia.
    pose proof whole_len as WL.
    destruct (m <? 56)%nat eqn:E56.
    { apply Nat.ltb_lt in E56. destruct (Nat.eqb_spec m (length whole)); [lia|]. destruct (Nat.leb_spec (length p0 + 56) m); [lia|reflexivity]. }
    apply Nat.ltb_ge in E56.
    destruct (Nat.leb_spec (length p0 + 56) m) as [G|G].
    2:{ destruct (Nat.eqb_spec m (length whole)); [lia|].
        destruct (searchLoop (m - 56 + 1) (firstn m whole) (SHA1 (tagReq 49 ++ secret)) 0) as [p|] eqn:Sr; [|reflexivity].
        exfalso. destruct (searchLoop_some _ _ _ _ _ Sr) as (k & -> & K & O & _).
        apply (First k); [lia|]. apply occurs_prefix in O; [exact O|]. rewrite len1. lia. }
    rewrite (searchLoop_first _ _ _ 0 (length p0)); [|lia| |].
    2:{ apply occurs_prefix; [rewrite len1; lia|apply occurs_here]. }
    2:{ intros j J O. apply (First j J). apply occurs_prefix in O; [exact O|]. rewrite len1. lia. }
    change (0 + length p0)%nat with (length p0). cbv zeta. rewrite look_whole by lia.
    set (b := skipn (length p0 + 40) (firstn m whole)).
    assert (Eb : b = firstn (m - (length p0 + 40)) body).
    { unfold b. rewrite skipn_firstn_comm, whole_at40. reflexivity. }
    set (q := (m - (length p0 + 40))%nat) in *.
    assert (Q16 : (16 <= q)%nat) by (unfold q; lia).
    destruct (decode_cut _ _ q _ _ body_dec) as (sq & Dq & Dq').
    rewrite <- Eb in Dq. destruct (decode_cut _ _ 14 _ _ Dq) as (s14 & D14 & D14').
    rewrite D14. destruct (plain_head q) as (x & Hx); [lia|].
    assert (Hh : firstn 14 (firstn q plain) = repeat 0 8 ++ be 4 3 ++ be 2 (zlen padding)).
    { rewrite Hx. apply firstn_app_len. rewrite !app_length, repeat_length, !be_length. reflexivity. }
    rewrite Hh.
    replace (firstn 8 (repeat 0 8 ++ be 4 3 ++ be 2 (zlen padding))) with (repeat 0 8) by reflexivity.
    replace (slice 8 4 (repeat 0 8 ++ be 4 3 ++ be 2 (zlen padding))) with (be 4 3) by reflexivity.
    replace (slice 12 2 (repeat 0 8 ++ be 4 3 ++ be 2 (zlen padding))) with (be 2 (zlen padding)) by reflexivity.
    replace (unbe (repeat 0 8) =? 0) with true by reflexivity. cbn [negb].
    replace (unbe (be 4 3)) with 3 by reflexivity. rewrite options3.
    rewrite unbe_be by (unfold zlen in *; lia). unfold zlen at 1 2. rewrite Nat2Z.id.
    destruct (m <? length p0 + 40 + 14 + length padding + 2)%nat eqn:E1.
    { apply Nat.ltb_lt in E1. destruct (Nat.eqb_spec m (length whole)); [lia|reflexivity]. }
    apply Nat.ltb_ge in E1.
    destruct (decode_cut _ _ (length padding) _ _ D14') as (sp & Dp & Dp').
    assert (Lb : length b = q) by (rewrite Eb, firstn_length, body_len; lia).
    assert (Sk : rc4_skip s14 (length padding) = sp).
    { eapply skip_by; [exact Dp|]. rewrite firstn_length, skipn_length, Lb. lia. }
    unfold zlen. rewrite ?Nat2Z.id. rewrite Sk. rewrite !skip_skip in Dp'. rewrite Dp'.
    assert (Ht : skipn (14 + length padding) (firstn q plain) = firstn (q - (14 + length padding)) (be 2 (u16 (zlen message)) ++ message)).
    { rewrite skipn_firstn_comm. f_equal. unfold plain, pe3Plain.
      replace (repeat 0 8 ++ be 4 3 ++ be 2 (zlen padding) ++ padding ++ be 2 (u16 (zlen message)) ++ message)
        with ((repeat 0 8 ++ be 4 3 ++ be 2 (zlen padding) ++ padding) ++ be 2 (u16 (zlen message)) ++ message) by (rewrite <- !app_assoc; reflexivity).
      replace (14 + length padding)%nat with (length (repeat 0 8 ++ be 4 3 ++ be 2 (zlen padding) ++ padding)) by (rewrite !app_length, repeat_length, !be_length; lia).
      apply skipn_app_exact. }
    rewrite Ht. set (w := (q - (14 + length padding))%nat). assert (W2 : (2 <= w)%nat) by (unfold w, q; lia).
    assert (F2 : firstn 2 (firstn w (be 2 (u16 (zlen message)) ++ message)) = be 2 (u16 (zlen message))).
    { rewrite firstn_firstn. replace (Nat.min 2 w) with (length (be 2 (u16 (zlen message)))) by (rewrite be_length; lia). apply firstn_app_exact. }
    assert (S2 : skipn 2 (firstn w (be 2 (u16 (zlen message)) ++ message)) = firstn (w - 2) message).
    { rewrite skipn_firstn_comm. f_equal. }
    rewrite F2, S2. unfold u16. rewrite Z.mod_small by (unfold zlen in *; lia). rewrite unbe_be by (unfold zlen in *; lia).
    unfold zlen. rewrite Nat2Z.id. rewrite firstn_length.
    destruct (Nat.eqb_spec m (length whole)) as [Em|Em].
    - assert (Ew : (w - 2 = length message)%nat) by (unfold w, q; lia).
      rewrite Ew. destruct (Nat.ltb_spec (Nat.min (length message) (length message)) (length message)); [lia|].
      rewrite firstn_all, skipn_all. f_equal; [|apply firstn_all].
      assert (Eq : q = length body) by (rewrite body_len; unfold q; lia).
      rewrite Eq, skipn_all in Dq'. cbn in Dq'. 
      rewrite Eq, firstn_all in Eb. rewrite Eb in Dq. rewrite body_dec in Dq. now injection Dq as ->.
    - destruct (Nat.ltb_spec (Nat.min (w - 2) (length message)) (length message)) as [Lt|Ge]; [reflexivity|].
      exfalso. unfold w, q in Ge. lia.
  Qed.
End Read3.

(** Listening to the pieces of message 3. *)
Section Listen.
  Variables (secret info padding message : list Z) (torrents : list (list Z)).
  Hypothesis S96 : secret_ok secret.
  Hypothesis H20 : hash_ok info.
  Hypothesis Pad : zlen padding < 65536.
  Hypothesis Msg : zlen message < 65536.
  Hypothesis Look : findByPe3Hash torrents (xorBytes (SHA1 (tagReq 51 ++ secret)) (req2Hash info)) (tagReq 51 ++ secret) = Some info.
  Variables (out : rc4) (m3 : list Z).
  Hypothesis M3 : createPe3 secret info padding message = (out, m3).
  Let done := Pe3Done info TypeRC4 out (rcStart invokerB secret info) message.

  Lemma m3_parts : exists body, m3 = SHA1 (tagReq 49 ++ secret) ++ xorBytes (SHA1 (tagReq 51 ++ secret)) (req2Hash info) ++ body /\
    rc4_decode (rcStart invokerA secret info) body = (out, pe3Plain padding message).
  Proof using M3.
    unfold createPe3 in M3. destruct (rc4_encode (rcStart invokerA secret info) (pe3Plain padding message)) as [o b] eqn:E.
    injection M3 as <- <-. exists b. split; [reflexivity|]. apply rc4_invol. exact E.
  Qed.

  Lemma readPe3_at p0 m : (forall k, (k < length p0)%nat -> ~ occurs (SHA1 (tagReq 49 ++ secret)) k (p0 ++ m3)) ->
    (m <= length (p0 ++ m3))%nat ->
    readPe3 secret torrents (firstn m (p0 ++ m3)) =
    if (m =? length (p0 ++ m3))%nat then done else Pe3Wait (if (length p0 + 56 <=? m)%nat then length p0 else 0%nat).
  Proof using S96 H20 Pad Msg Look M3.
    intros F L. destruct m3_parts as (body & E & D). subst m3. apply (readPe3_prefix secret info padding message p0 body out); assumption.
  Qed.

  Lemma m3_len : (56 <= length m3)%nat.
  Proof using S96 H20 Pad Msg Look M3.
    destruct m3_parts as (body & E & D). rewrite E.
    pose proof (whole_len secret info padding message [] body out torrents S96 H20 Look D) as L. cbn [app length] in L. lia.
  Qed.

  Lemma listen_tail chunks : forall m, (m < length m3)%nat -> firstn m m3 ++ concat chunks = m3 ->
    listen secret torrents (firstn m m3) chunks = Some done.
  Proof using S96 H20 Pad Msg Look M3.
    induction chunks as [|c cs IH]; intros m L E.
    - cbn [concat] in E. rewrite app_nil_r in E. apply (f_equal (@length Z)) in E. rewrite firstn_length in E. lia.
    - cbn [concat] in E. rewrite app_assoc in E. cbn [listen].
      assert (F : firstn m m3 ++ c = firstn (m + length c) m3).
      { rewrite <- E at 2. symmetry. apply firstn_app_len. rewrite app_length, firstn_length. lia. }
      assert (Lc : (m + length c <= length m3)%nat).
      { apply (f_equal (@length Z)) in E. rewrite !app_length, firstn_length in E. lia. }
      rewrite F in *. pose proof (readPe3_at [] (m + length c)) as R. cbn [app length] in R. rewrite R; [|intros; lia|exact Lc].
      destruct (Nat.eqb_spec (m + length c) (length m3)) as [Q|Q]; [reflexivity|].
      replace (if (0 + 56 <=? m + length c)%nat then 0%nat else 0%nat) with 0%nat by (destruct (0 + 56 <=? m + length c)%nat; reflexivity).
      cbn [skipn]. apply IH; [lia|exact E].
  Qed.

  Lemma listen_ok p0 chunks : (forall k, (k < length p0)%nat -> ~ occurs (SHA1 (tagReq 49 ++ secret)) k (p0 ++ m3)) ->
    forall m, (m < length (p0 ++ m3))%nat -> firstn m (p0 ++ m3) ++ concat chunks = p0 ++ m3 ->
    listen secret torrents (firstn m (p0 ++ m3)) chunks = Some done.
  Proof using S96 H20 Pad Msg Look M3.
    intros First. induction chunks as [|c cs IH]; intros m L E.
    - cbn [concat] in E. rewrite app_nil_r in E. apply (f_equal (@length Z)) in E. rewrite firstn_length in E. lia.
    - cbn [concat] in E. rewrite app_assoc in E. cbn [listen]. set (w := p0 ++ m3) in *.
      assert (F : firstn m w ++ c = firstn (m + length c) w).
      { rewrite <- E at 2. symmetry. apply firstn_app_len. rewrite app_length, firstn_length. lia. }
      assert (Lc : (m + length c <= length w)%nat).
      { apply (f_equal (@length Z)) in E. rewrite !app_length, firstn_length in E. lia. }
      rewrite F in *. unfold w at 1. rewrite readPe3_at; [|exact First|exact Lc]. fold w.
      destruct (Nat.eqb_spec (m + length c) (length w)) as [Q|Q]; [reflexivity|].
      destruct (length p0 + 56 <=? m + length c)%nat eqn:G.
      + apply Nat.leb_le in G.
        assert (S1 : skipn (length p0) (firstn (m + length c) w) = firstn (m + length c - length p0) m3).
        { rewrite skipn_firstn_comm. unfold w. rewrite skipn_app_exact. reflexivity. }
        rewrite S1. assert (Lw : length w = (length p0 + length m3)%nat) by (unfold w; apply app_length).
        apply listen_tail; [lia|].
        assert (E2 : skipn (length p0) (firstn (m + length c) w ++ concat cs) = m3) by (rewrite E; unfold w; apply skipn_app_exact).
        rewrite skipn_app in E2. rewrite S1 in E2.
        replace (length p0 - length (firstn (m + length c) w))%nat with 0%nat in E2 by (rewrite firstn_length; lia). exact E2.
      + cbn [skipn]. apply IH; [lia|exact E].
  Qed.
End Listen.

(** What acceptance implies. *)
Lemma readPe3_done secret torrents data info type rcIn rcOut msg : readPe3 secret torrents data = Pe3Done info type rcIn rcOut msg ->
  In info torrents /\ rcOut = rcStart invokerB secret info /\
  exists start, (start + 56 <= length data)%nat /\ occurs (SHA1 (tagReq 49 ++ secret)) start data /\
    unbe (firstn 8 (snd (rc4_decode (rcStart invokerA secret info) (firstn 14 (skipn (start + 40) data))))) = 0 /\
    rcIn = fst (rc4_decode (rcStart invokerA secret info) (skipn (start + 40) data)).
Proof.
  unfold readPe3. destruct (Nat.ltb_spec (length data) 56) as [L56|L56]; [discriminate|].
  destruct (searchLoop _ _ _ _) as [start|] eqn:Sr; [|discriminate].
  destruct (findByPe3Hash _ _ _) as [i|] eqn:Fd; [|discriminate].
  destruct (rc4_decode (rcStart invokerA secret i) (firstn 14 (skipn (start + 40) data))) as [in1 head] eqn:D1.
  destruct (unbe (firstn 8 head) =? 0) eqn:VC; cbn [negb]; [|discriminate].
  destruct (peOptions _) as [t|]; [|discriminate].
  set (pad := Z.to_nat (unbe (slice 12 2 head))).
  destruct (Nat.ltb_spec (length data) (start + 40 + 14 + pad + 2)) as [X|LD]; [discriminate|].
  destruct (rc4_decode (rc4_skip in1 pad) (skipn (14 + pad) (skipn (start + 40) data))) as [in3 tail] eqn:D3.
  destruct (_ <? _)%nat; [discriminate|].
  destruct (skipn (Z.to_nat (unbe (firstn 2 tail))) (skipn 2 tail)); [|discriminate].
  intros H. injection H as <- <- <- <- <-. split; [eapply find_in; exact Fd|]. split; [reflexivity|].
  exists start. destruct (searchLoop_some _ _ _ _ _ Sr) as (k & -> & Kn & O & _). change (0 + k)%nat with k in *.
  split; [lia|]. split; [exact O|]. rewrite D1. cbn [snd]. split; [lia|].
  set (b := skipn (k + 40) data) in *.
  destruct (rc4_decode (rcStart invokerA secret i) b) as [sf rf] eqn:DB.
  destruct (decode_cut _ _ 14 _ _ DB) as (s1 & C1 & C2). rewrite D1 in C1. injection C1 as <- _.
  destruct (decode_cut _ _ pad _ _ C2) as (s2 & C3 & C4).
  assert (Lb : (length b = length data - (k + 40))%nat) by (unfold b; apply skipn_length).
  rewrite (skip_by _ _ _ _ pad C3) in D3 by (rewrite firstn_length, skipn_length; lia).
  rewrite skip_skip in C4. rewrite D3 in C4. now injection C4 as -> _.
Qed.

(** Message 4. *)
Lemma peType4 type : peOptions (match type with TypeRC4 => 2 | TypePlain => 1 end) = Some type.
Proof. destruct type; reflexivity. Qed.

Lemma readPe4_whole rcIn type padding p0 rest out m4 : zlen padding < 65536 ->
  createPe4 rcIn type padding = (out, m4) ->
  (forall k, (k < length p0)%nat -> ~ occurs (firstn 8 m4) k (p0 ++ m4 ++ rest)) ->
  readPe4 rcIn (p0 ++ m4 ++ rest) = (out, Pe4Done (length p0 + length m4) type).
Proof.
  intros Pad C First. unfold createPe4 in C.
  set (plain := repeat 0 8 ++ be 4 (match type with TypeRC4 => 2 | TypePlain => 1 end) ++ be 2 (zlen padding) ++ padding) in *.
  assert (Lp : length plain = (14 + length padding)%nat) by (unfold plain; rewrite !app_length, repeat_length, !be_length; lia).
  assert (D : rc4_decode rcIn m4 = (out, plain)) by (apply rc4_invol; exact C).
  assert (Lm : length m4 = (14 + length padding)%nat) by (rewrite <- Lp; symmetry; exact (decode_length _ _ _ _ D)).
  destruct (decode_cut _ _ 8 _ _ D) as (s8 & D1 & D2).
  change (firstn 8 plain) with (repeat 0 8) in D1.
  assert (E1 : rc4_decode rcIn (repeat 0 8) = (s8, firstn 8 m4)) by (apply rc4_invol; exact D1).
  unfold readPe4. rewrite !app_length.
  destruct (Nat.ltb_spec (length p0 + (length m4 + length rest)) 14); [lia|].
  rewrite E1.
  assert (L8 : length (firstn 8 m4) = 8%nat) by (rewrite firstn_length; lia).
  rewrite (searchLoop_first _ _ _ 0 (length p0)); [|lia| |exact First].
  2:{ unfold occurs. rewrite skipn_app_exact, L8, firstn_app. replace (8 - length m4)%nat with 0%nat by lia.
      cbn [firstn]. apply app_nil_r. }
  change (0 + length p0)%nat with (length p0).
  assert (H6 : firstn 6 (skipn (length p0 + 8) (p0 ++ m4 ++ rest)) = firstn 6 (skipn 8 m4)).
  { rewrite <- skip_skip, skipn_app_exact, skipn_app. rewrite firstn_app.
    replace (6 - length (skipn 8 m4))%nat with 0%nat by (rewrite skipn_length; lia). apply app_nil_r. }
  rewrite H6. destruct (decode_cut _ _ 6 _ _ D2) as (s14 & D3 & D4). rewrite D3.
  change (firstn 6 (skipn 8 plain)) with (be 4 (match type with TypeRC4 => 2 | TypePlain => 1 end) ++ be 2 (zlen padding)).
  change (firstn 4 (be 4 (match type with TypeRC4 => 2 | TypePlain => 1 end) ++ be 2 (zlen padding))) with (be 4 (match type with TypeRC4 => 2 | TypePlain => 1 end)).
  change (slice 4 2 (be 4 (match type with TypeRC4 => 2 | TypePlain => 1 end) ++ be 2 (zlen padding))) with (be 2 (zlen padding)).
  rewrite unbe_be by (destruct type; cbn; lia). rewrite peType4.
  rewrite unbe_be by (unfold zlen in *; lia). unfold zlen. rewrite Nat2Z.id.
  destruct (Nat.ltb_spec (length p0 + (length m4 + length rest)) (length p0 + 14 + length padding)); [lia|].
  rewrite (skip_by _ _ _ _ (length padding) D4) by (rewrite !skipn_length; lia).
  f_equal. f_equal. lia.
Qed.

(** Deliveries. *)
Section Deliver.
  Variable st0 : rc4.

  (** After ciphertext [c] of which [n] plaintext bytes were consumed. *)
  Definition received (c : list Z) (n : nat) (st : pstream) : Prop :=
    (n <= length c)%nat /\ maskIdx (ps_in st) = maskIdx (fst (rc4_decode st0 c)) /\ ps_buffer st = skipn n (snd (rc4_decode st0 c)) /\
    ps_unhandled st = length (ps_buffer st).

  Lemma snd_len c : length (snd (rc4_decode st0 c)) = length c.
  Proof using. apply encode_len. Qed.

  Lemma deliver_ok c n st chunk takes st1 view : received c n st -> deliver st chunk takes = (st1, view) ->
    (takes view <= length view)%nat ->
    view = skipn n (snd (rc4_decode st0 (c ++ chunk))) /\ received (c ++ chunk) (n + takes view) st1.
  Proof using.
    intros (L & I & B & U) D T. unfold deliver in D. rewrite U in D.
    rewrite skipn_app_exact, firstn_app_exact in D. rewrite (decode_mask _ _ _ I), B in D.
    pose proof (rc4_decode_app c chunk st0) as A.
    destruct (rc4_decode st0 c) as [s1 r1] eqn:E1. cbn [fst snd] in *.
    destruct (rc4_decode s1 chunk) as [s2 r2] eqn:E2.
    injection D as D1 D2. pose proof (snd_len c) as L1. rewrite E1 in L1. cbn [snd] in L1.
    pose proof (decode_length _ _ _ _ E2) as L2.
    assert (V : view = skipn n (r1 ++ r2)).
    { rewrite <- D2, skipn_app. f_equal. replace (n - length r1)%nat with 0%nat by lia. reflexivity. }
    assert (SD : snd (rc4_decode st0 (c ++ chunk)) = r1 ++ r2) by (rewrite A; reflexivity).
    assert (Lv : length view = (length r1 + length r2 - n)%nat) by (rewrite V, skipn_length, app_length; reflexivity).
    split; [rewrite A; exact V|]. unfold received. rewrite A. cbn [fst snd].
    rewrite D2 in D1. rewrite <- D1. cbn [ps_in ps_buffer ps_unhandled]. rewrite app_length.
    split; [lia|]. split; [reflexivity|]. split; [rewrite V, skip_skip; reflexivity|]. rewrite skipn_length. reflexivity.
  Qed.
End Deliver.
