(** C112: the encryption handshake as a whole. *)
From Verif Require Import Base BaseLemmas BigModel BigSpec BigProofs BigProofs2 BigProofs3 DhModel BigProps Rc4Model ShaModel PeModel PeSpec PeProofs PeProps
  PeSessionModel PeSessionSpec.
From Verif Require ListenerModel ListenerProofs.

Opaque rcStart rc4_encode rc4_decode SHA1 Powm Export.

Lemma not_plain stream j data rest : skipn j stream = data ++ rest -> (forall k, ~ stands_at plainStart k stream) ->
  ListenerModel.startsAsHandshake data = false.
Proof.
  intros E N. unfold ListenerModel.startsAsHandshake.
  destruct (Nat.leb_spec 20 (length data)) as [L|_]; [|reflexivity]. cbn [andb].
  destruct (ListenerModel.same (firstn 20 data) (19 :: ListenerModel.protocolName)) eqn:F; [|reflexivity].
  apply ListenerProofs.same_eq in F. exfalso. apply (N j).
  exists (firstn j stream), (skipn 20 data ++ rest). split.
  - rewrite <- (firstn_skipn j stream) at 1. rewrite E. f_equal. rewrite <- (firstn_skipn 20 data) at 1. rewrite F, <- app_assoc. reflexivity.
  - assert (LL : length (skipn j stream) = length (data ++ rest)) by congruence.
    rewrite skipn_length, app_length in LL. rewrite firstn_length. lia.
Qed.

Lemma search_le n : forall rest pat pos k, searchLoop n rest pat pos = Some k -> (k < pos + n)%nat.
Proof.
  induction n as [|n IH]; intros rest pat pos k H; [discriminate|]. cbn [searchLoop] in H.
  destruct (list_eqb (firstn (length pat) rest) pat); [injection H as <-; lia|]. apply IH in H. lia.
Qed.

Lemma wait_le secret torrents data n : readPe3 secret torrents data = Pe3Wait n -> (n <= length data)%nat /\ ((length data < 56)%nat -> n = 0%nat).
Proof.
  unfold readPe3. destruct (Nat.ltb_spec (length data) 56); [intros [= <-]; lia|].
  destruct (searchLoop _ _ _ _) as [st|] eqn:R; [|intros [= <-]; lia]. apply search_le in R.
  destruct (findByPe3Hash _ _ _); [|discriminate].
  destruct (rc4_decode _ _) as [in1 head]. destruct (negb _); [discriminate|].
  destruct (peOptions _); [|discriminate]. destruct (_ <? _)%nat; [intros [= <-]; lia|].
  destruct (rc4_decode _ _) as [in3 tail]. destruct (_ <? _)%nat; [intros [= <-]; lia|].
  destruct (skipn _ _); discriminate.
Qed.

Lemma done_len secret torrents data info t a b m : readPe3 secret torrents data = Pe3Done info t a b m -> (56 <= length data)%nat.
Proof. unfold readPe3. destruct (Nat.ltb_spec (length data) 56); [discriminate|auto]. Qed.

Lemma m4_len rc t pad : exists x l, snd (createPe4 rc t pad) = x :: l.
Proof.
  assert (L : length (snd (createPe4 rc t pad)) <> 0%nat).
  { unfold createPe4. rewrite encode_len. rewrite !app_length. cbn [repeat length]. lia. }
  destruct (snd (createPe4 rc t pad)) as [|x l]; [contradiction|eauto].
Qed.

Lemma lRun_listen torrents padB padD info t rin rout msg stream : (forall k, ~ stands_at plainStart k stream) ->
  forall cs h b j, hStep h = SPe3 -> b ++ concat cs = skipn j stream ->
  listen (hSecret h) torrents b cs = Some (Pe3Done info t rin rout msg) ->
  lRun h b torrents padB padD cs =
    Ok (LOpen info {| ps_in := rin; ps_unhandled := 0; ps_buffer := [] |} (fst (createPe4 rout t padD)) msg, [snd (createPe4 rout t padD)]).
Proof.
  intros N. induction cs as [|c cs IH]; intros h b j St E H; [discriminate|].
  cbn [listen concat] in H, E. rewrite app_assoc in E. cbn [lRun]. unfold lDeliver.
  rewrite (not_plain stream j (b ++ c) (concat cs) (eq_sym E) N). cbv zeta.
  unfold readAsListener. rewrite St.
  destruct (readPe3 (hSecret h) torrents (b ++ c)) as [n| |info' t' a' b' m'] eqn:R.
  - destruct (wait_le _ _ _ _ R) as [Ln L0].
    assert (EE : skipn n (b ++ c) ++ concat cs = skipn (j + n) stream).
    { rewrite <- skip_skip, <- E. rewrite (skipn_app n (b ++ c) (concat cs)). replace (n - length (b ++ c))%nat with 0%nat by lia. reflexivity. }
    destruct (Nat.ltb_spec (length (b ++ c)) 20).
    + assert (n = 0%nat) by (apply L0; lia). subst n. cbn [bind]. cbn [skipn] in H, EE.
      rewrite (IH h (b ++ c) _ St EE H). reflexivity.
    + cbn [bind]. rewrite St. cbn [bind]. rewrite (IH h _ _ St EE H). reflexivity.
  - discriminate.
  - injection H as -> -> -> -> ->. pose proof (done_len _ _ _ _ _ _ _ _ R).
    destruct (Nat.ltb_spec (length (b ++ c)) 20); [lia|].
    destruct (m4_len rout t padD) as (x & l & M). destruct (createPe4 rout t padD) as [out m4]. cbn [fst snd] in M |- *. subst m4.
    cbn [bind hStep hInfo hIn hOut hMessage]. reflexivity.
Qed.

Lemma lRun_first torrents padB padD stream : (forall k, ~ stands_at plainStart k stream) ->
  forall first b c post h rest m2 s, hStep h = SPe1 -> b ++ concat first ++ c ++ rest = stream ->
  (length (b ++ concat first) < 96)%nat -> (96 <= length (b ++ concat first ++ c))%nat ->
  createExchangeMessage (hPrivate h) padB = Ok m2 -> m2 <> [] -> createSecretFromRemoteKey (hPrivate h) (b ++ concat first ++ c) = Ok s ->
  lRun h b torrents padB padD (first ++ c :: post) =
    bind (lRun {| hStep := SPe3; hPrivate := zeroKey; hSecret := Export s 96; hInfo := hInfo h; hMessage := hMessage h;
                  hIn := hIn h; hOut := hOut h; hType := hType h |} [] torrents padB padD post) (fun q => Ok (fst q, m2 :: snd q)).
Proof.
  intros N. induction first as [|d first IH]; intros b c post h rest m2 s St E L1 L2 M2 Ne Sec.
  - cbn [concat app] in *. rewrite app_nil_r in L1. cbn [lRun]. unfold lDeliver. cbv zeta.
    destruct (Nat.ltb_spec (length (b ++ c)) 20); [lia|].
    rewrite (not_plain stream 0 (b ++ c) rest) by (auto; cbn [skipn]; rewrite <- app_assoc; auto).
    unfold readAsListener. rewrite St. unfold KeySize. destruct (Nat.ltb_spec (length (b ++ c)) 96); [lia|].
    rewrite M2. cbn [bind]. rewrite Sec. cbn [bind hStep]. rewrite skipn_all. destruct m2 as [|x m2]; [contradiction|]. reflexivity.
  - cbn [concat] in *. cbn [app lRun]. unfold lDeliver. cbv zeta. rewrite !app_length in *.
    assert (EE : (b ++ d) ++ concat first ++ c ++ rest = stream) by (rewrite <- E, <- !app_assoc; reflexivity).
    assert (I : lRun h (b ++ d) torrents padB padD (first ++ c :: post) =
      bind (lRun {| hStep := SPe3; hPrivate := zeroKey; hSecret := Export s 96; hInfo := hInfo h; hMessage := hMessage h;
                  hIn := hIn h; hOut := hOut h; hType := hType h |} [] torrents padB padD post) (fun q => Ok (fst q, m2 :: snd q))).
    { apply (IH (b ++ d) c post h rest m2 s); auto; rewrite ?app_length; try lia. rewrite <- Sec, <- !app_assoc. reflexivity. }
    destruct (length b + length d <? 20)%nat.
    + cbn [bind]. rewrite I. destruct (lRun _ _ _ _ _ post); reflexivity.
    + rewrite (not_plain stream 0 (b ++ d) (concat first ++ c ++ rest)) by auto.
      unfold readAsListener. rewrite St. unfold KeySize. rewrite app_length.
      destruct (Nat.ltb_spec (length b + length d) 96); [|lia]. cbn [bind]. rewrite St. cbn [skipn bind].
      rewrite I. destruct (lRun _ _ _ _ _ post); reflexivity.
Qed.

Lemma iDeliver_pe4 h b c pad takes : hStep h = SPe4 ->
  iDeliver h b c pad takes =
  match deliverPe4 (hIn h) b c takes with
  | HsWait in1 b1 => Ok (IWaits {| hStep := SPe4; hPrivate := hPrivate h; hSecret := hSecret h; hInfo := hInfo h; hMessage := hMessage h;
                                   hIn := in1; hOut := hOut h; hType := hType h |} b1, [])
  | HsClosed => Ok (IClosed, [])
  | HsOpen st v => Ok (IOpen st (hOut h) v, [])
  | HsPlain r => Ok (IPlain r, [])
  end.
Proof.
  intros St. unfold iDeliver, deliverPe4, readAsInitiator. rewrite St. cbv zeta.
  destruct (readPe4 (hIn h) (b ++ c)) as [in1 [n| |n [|]]]; cbn [bind hStep hType hIn hOut]; try reflexivity.
  destruct (skipn n (b ++ c)); [reflexivity|]. destruct (deliver _ _ _); reflexivity.
Qed.

Lemma early_wait rc b c takes : (length (b ++ c) < 14)%nat -> deliverPe4 rc b c takes = HsWait rc (b ++ c).
Proof.
  intros L. unfold deliverPe4, readPe4. destruct (Nat.ltb_spec (length (b ++ c)) 14); [|lia]. reflexivity.
Qed.

Lemma iRun_mid pad takes last : forall mid h b, hStep h = SPe4 -> (length (b ++ concat mid) < 14)%nat ->
  iRun h b pad takes (mid ++ [last]) = iRun h (b ++ concat mid) pad takes [last].
Proof.
  induction mid as [|d mid IH]; intros h b St L; [cbn [app concat]; rewrite app_nil_r; reflexivity|].
  cbn [app concat] in *. rewrite app_assoc in L |- *. set (R := iRun h ((b ++ d) ++ concat mid) pad takes [last]). cbn [iRun].
  rewrite (iDeliver_pe4 h b d) by exact St.
  rewrite early_wait by (rewrite app_length in L; lia). cbn [bind].
  destruct h as [st pr se inf me hi ho ty]. cbn [hStep hPrivate hSecret hInfo hMessage hIn hOut hType] in *. subst st.
  rewrite IH by (auto; lia). fold R. destruct R as [[q w]|]; reflexivity.
Qed.

Lemma m3_some secret info pad msg : exists z l, snd (createPe3 secret info pad msg) = z :: l.
Proof.
  assert (L : length (snd (createPe3 secret info pad msg)) <> 0%nat).
  { unfold createPe3. pose proof (encode_len (rcStart invokerA secret info) (pe3Plain pad msg)) as E.
    destruct (rc4_encode _ _) as [o b]. cbn [snd] in *. rewrite !app_length, E. unfold pe3Plain. rewrite !app_length. cbn [repeat length]. lia. }
  destruct (snd (createPe3 secret info pad msg)); [contradiction|eauto].
Qed.

Lemma iRun_first pad takes : forall first b c post h s, hStep h = SPe2 ->
  (length (b ++ concat first) < 96)%nat -> (96 <= length (b ++ concat first ++ c))%nat ->
  createSecretFromRemoteKey (hPrivate h) (b ++ concat first ++ c) = Ok s ->
  iRun h b pad takes (first ++ c :: post) =
    bind (iRun {| hStep := SPe4; hPrivate := zeroKey; hSecret := Export s 96; hInfo := hInfo h; hMessage := hMessage h;
                  hIn := rcStart invokerB (Export s 96) (hInfo h); hOut := fst (createPe3 (Export s 96) (hInfo h) pad (hMessage h)); hType := hType h |}
               [] pad takes post) (fun q => Ok (fst q, snd (createPe3 (Export s 96) (hInfo h) pad (hMessage h)) :: snd q)).
Proof.
  induction first as [|d first IH]; intros b c post h s St L1 L2 Sec.
  - cbn [concat app] in *. cbn [iRun]. unfold iDeliver. cbv zeta.
    unfold readAsInitiator. rewrite St. unfold KeySize. destruct (Nat.ltb_spec (length (b ++ c)) 96); [lia|].
    rewrite Sec. cbn [bind]. destruct (m3_some (Export s 96) (hInfo h) pad (hMessage h)) as (z & l & M).
    destruct (createPe3 _ _ _ _) as [out m3]. cbn [fst snd] in M |- *. subst m3. cbn [bind hStep]. rewrite skipn_all. reflexivity.
  - cbn [concat] in *. cbn [app iRun]. unfold iDeliver. cbv zeta. rewrite !app_length in *.
    unfold readAsInitiator. rewrite St. unfold KeySize. rewrite app_length.
    destruct (Nat.ltb_spec (length b + length d) 96); [|lia]. cbn [bind]. rewrite St. cbn [skipn bind].
    rewrite (IH (b ++ d) c post h s); auto; rewrite ?app_length; try lia.
    + destruct (iRun _ _ _ _ post); reflexivity.
    + rewrite <- Sec, <- !app_assoc. reflexivity.
Qed.

Lemma prefix_split {A} (d r m1 m3 : list A) : d ++ r = m1 ++ m3 -> (length d <= length m1)%nat ->
  exists t, m1 = d ++ t /\ r = t ++ m3.
Proof.
  intros E L. exists (skipn (length d) m1).
  assert (F : firstn (length d) m1 = d).
  { transitivity (firstn (length d) (m1 ++ m3)); [|rewrite <- E; apply firstn_app_exact].
    rewrite firstn_app. replace (length d - length m1)%nat with 0%nat by lia. cbn [firstn]. rewrite app_nil_r. reflexivity. }
  assert (M : m1 = d ++ skipn (length d) m1) by (rewrite <- F at 1; symmetry; apply firstn_skipn).
  split; [exact M|]. rewrite M, <- app_assoc in E. apply app_inv_head in E. exact E.
Qed.

Lemma same_secret x a b : firstn 96 a = firstn 96 b -> createSecretFromRemoteKey x a = createSecretFromRemoteKey x b.
Proof. intros E. unfold createSecretFromRemoteKey, KeySize. rewrite E. reflexivity. Qed.

Lemma stands_shift pat k p d : stands_at pat k d -> stands_at pat (length p + k) (p ++ d).
Proof. intros (a & b & E & L). exists (p ++ a), b. subst d. rewrite app_length, L, <- !app_assoc. auto. Qed.

(** Two ends with any private keys and any paddings: both get the bytes of 2^(x*y) modulo the prime. However what the initiator sends is cut,
    the other end answers the key with its own and hands the peer, with the message it sent along, to the torrent, and reads with the cipher
    the initiator writes with. The initiator, if message 4 and what was left of the padding of message 2 is not cut beyond its first 13 bytes,
    shows its owner what was sent after, and reads with the cipher the other end writes with. Excluded: streams in which a marker turns up by
    chance, and the torrents that are not looked up right (C14_refuted). *)
Theorem C112_agree_partial : forall x y padA padB padC padD info message,
  digits_ok x -> digits_ok y -> length x = 12%nat -> length y = 12%nat -> is_info info ->
  zlen padC < 512 -> zlen padD < 512 -> zlen message < 65536 ->
  exists h m1 m2 secret,
  initiate (newHandshake x) info message padA = Ok (h, m1) /\ length m1 = (96 + length padA)%nat /\ length m2 = (96 + length padB)%nat /\
  is_secret secret /\ unbe secret = 2 ^ (value x * value y) mod unbe pePrimesArray /\
  forall out m3 out4 m4, createPe3 secret info padC message = (out, m3) ->
  createPe4 (rcStart invokerB secret info) TypeRC4 padD = (out4, m4) ->
  (forall torrents first c post, reaches 96 first c -> (length (concat first ++ c) <= length m1)%nat ->
   concat first ++ c ++ concat post = m1 ++ m3 -> lookup secret info torrents = Some info ->
   (forall k, ~ stands_at plainStart k (m1 ++ m3)) ->
   (forall k, (96 <= k < length m1)%nat -> ~ stands_at (SHA1 (tagReq 49 ++ secret)) k (m1 ++ m3)) ->
   (exists h1, lRun (newHandshake y) [] torrents padB padD (first ++ [c]) = Ok (LWaits h1 [], [m2])) /\
   lRun (newHandshake y) [] torrents padB padD (first ++ c :: post) =
     Ok (LOpen info {| ps_in := out; ps_unhandled := 0; ps_buffer := [] |} out4 message, [m2; m4])) /\
  (forall first c mid last plaintext takes, reaches 96 first c -> (length (concat first ++ c) <= length m2)%nat ->
   concat first ++ c ++ concat mid ++ last = m2 ++ m4 ++ snd (rc4_encode out4 plaintext) -> (length (concat mid) < 14)%nat ->
   (takes plaintext <= length plaintext)%nat -> plaintext <> [] ->
   (forall k, (96 <= k < length m2)%nat -> ~ stands_at (firstn 8 m4) k (m2 ++ m4 ++ snd (rc4_encode out4 plaintext))) ->
   (exists h1, iRun h [] padC takes (first ++ [c]) = Ok (IWaits h1 [], [m3])) /\
   exists st, iRun h [] padC takes (first ++ c :: mid ++ [last]) = Ok (IOpen st out plaintext, [m3]) /\
     received out4 (snd (rc4_encode out4 plaintext)) (takes plaintext) st).
Proof.
  intros x y padA padB padC padD info message Dx Dy Lx Ly Inf PC PD ML.
  destruct (C13_agree x y padA padB Dx Dy Lx Ly) as (m1 & m2 & s & E1 & E2 & S1 & S2 & V & LS).
  destruct (message_ok x padA Dx Lx) as (m1' & E1' & L1 & B1 & F1 & V1). rewrite E1 in E1'. injection E1' as <-.
  destruct (message_ok y padB Dy Ly) as (m2' & E2' & L2 & B2 & F2 & V2). rewrite E2 in E2'. injection E2' as <-.
  destruct (remote_secret_ok x m2 _ Dx Lx B2 F2 V2) as (s' & S1' & Ds & Lens & _). rewrite S1 in S1'. injection S1' as <-.
  destruct (Export_ok s 96 Ds) as (X1 & X2 & _); [rewrite Lens; apply Nat.le_refl|].
  clear V1 V2. unfold KeySize in V, LS. set (secret := Export s 96) in *.
  unfold initiate. cbn [newHandshake hPrivate]. rewrite E1. cbn [bind]. do 4 eexists.
  split; [reflexivity|]. split; [exact L1|]. split; [exact L2|]. split; [split; [exact LS|exact X2]|]. split; [exact V|].
  clear V. intros out m3 out4 m4 M3 M4. split.
  - intros torrents first c post [R1 R2] Le E Look NP NM.
    assert (E' : (concat first ++ c) ++ concat post = m1 ++ m3) by (rewrite <- app_assoc; exact E).
    destruct (prefix_split _ _ _ _ E' Le) as (t & T1 & T2).
    assert (Sec : createSecretFromRemoteKey y ([] ++ concat first ++ c) = Ok s).
    { rewrite <- S2. apply same_secret. cbn [app]. rewrite T1. rewrite (firstn_app 96 (concat first ++ c)).
      replace (96 - length (concat first ++ c))%nat with 0%nat by lia. cbn [firstn]. rewrite app_nil_r. reflexivity. }
    assert (Ne : m2 <> []) by (intros ->; discriminate L2).
    assert (G : forall post', lRun (newHandshake y) [] torrents padB padD (first ++ c :: post') =
      bind (lRun {| hStep := SPe3; hPrivate := zeroKey; hSecret := secret; hInfo := []; hMessage := [];
                  hIn := noCipher; hOut := noCipher; hType := TypeRC4 |} [] torrents padB padD post') (fun q => Ok (fst q, m2 :: snd q))).
    { intros post'. exact (lRun_first torrents padB padD (m1 ++ m3) NP first [] c post' (newHandshake y) (concat post) m2 s eq_refl E R1 R2 E2 Ne Sec). }
    split.
    + eexists. rewrite G. reflexivity.
    + rewrite G.
      assert (Lis : listen secret torrents [] post = Some (Pe3Done info TypeRC4 out (rcStart invokerB secret info) message)).
      { apply (C14_handshake_partial secret info torrents padC message out m3 t post); auto.
        - split; assumption.
        - intros k K St. apply (NM (length (concat first ++ c) + k)%nat).
          + rewrite T1, (app_length (concat first ++ c) t). lia.
          + rewrite T1, <- (app_assoc (concat first ++ c) t m3). apply stands_shift. exact St. }
      rewrite (lRun_listen torrents padB padD info TypeRC4 out (rcStart invokerB secret info) message (m1 ++ m3) NP post
        {| hStep := SPe3; hPrivate := zeroKey; hSecret := secret; hInfo := []; hMessage := []; hIn := noCipher; hOut := noCipher; hType := TypeRC4 |} []
        (length (concat first ++ c)) eq_refl ltac:(cbn [app]; rewrite <- E', skipn_app_exact; reflexivity) Lis).
      rewrite M4. reflexivity.
  - intros first c mid last plaintext takes [R1 R2] Le E Lm Tk Ne NM.
    set (ct := snd (rc4_encode out4 plaintext)) in *.
    assert (E' : (concat first ++ c) ++ (concat mid ++ last) = m2 ++ (m4 ++ ct)) by (rewrite <- app_assoc; exact E).
    destruct (prefix_split _ _ _ _ E' Le) as (t & T1 & T2).
    assert (Sec : createSecretFromRemoteKey x ([] ++ concat first ++ c) = Ok s).
    { rewrite <- S1. apply same_secret. cbn [app]. rewrite T1. rewrite (firstn_app 96 (concat first ++ c)).
      replace (96 - length (concat first ++ c))%nat with 0%nat by lia. cbn [firstn]. rewrite app_nil_r. reflexivity. }
    set (h := {| hStep := SPe2; hPrivate := x; hSecret := []; hInfo := info; hMessage := message;
      hIn := noCipher; hOut := noCipher; hType := TypeRC4 |}).
    assert (G : forall post', iRun h [] padC takes (first ++ c :: post') =
      bind (iRun {| hStep := SPe4; hPrivate := zeroKey; hSecret := secret; hInfo := info; hMessage := message;
                  hIn := rcStart invokerB secret info; hOut := out; hType := TypeRC4 |} [] padC takes post') (fun q => Ok (fst q, m3 :: snd q))).
    { intros post'. pose proof (iRun_first padC takes first [] c post' h s eq_refl R1 R2 Sec) as Q.
      cbn [h hInfo hMessage hType] in Q. fold secret in Q. rewrite M3 in Q. exact Q. }
    split.
    + eexists. rewrite G. reflexivity.
    + destruct (C15_after_message4 (rcStart invokerB secret info) padD t out4 m4 plaintext (concat mid) last takes PD M4) as (st & D & Rc); auto.
      { intros k K St. apply (NM (length (concat first ++ c) + k)%nat).
        - rewrite T1, (app_length (concat first ++ c) t). lia.
        - rewrite T1, <- (app_assoc (concat first ++ c) t). apply stands_shift. exact St. }
      exists st. split; [|exact Rc].
      rewrite G, iRun_mid by (try reflexivity; exact Lm). cbn [app iRun].
      rewrite iDeliver_pe4 by reflexivity. cbn [hIn]. rewrite D. cbn [bind fst snd hOut]. reflexivity.
Qed.
Print Assumptions C112_agree_partial.

Lemma bytes_skipn n l : bytes_ok l -> bytes_ok (skipn n l).
Proof. intros B. rewrite <- (firstn_skipn n l) in B. apply Forall_app in B. tauto. Qed.
Lemma bytes_firstn n l : bytes_ok l -> bytes_ok (firstn n l).
Proof. intros B. rewrite <- (firstn_skipn n l) in B. apply Forall_app in B. tauto. Qed.

Lemma secret_defined x data : digits_ok x -> length x = 12%nat -> bytes_ok data -> (96 <= length data)%nat ->
  exists s, createSecretFromRemoteKey x data = Ok s.
Proof.
  intros D L B Ld. destruct (remote_secret_ok x data (unbe (firstn 96 data)) D L) as (s & E & _); eauto.
  - apply bytes_firstn. exact B.
  - rewrite firstn_length. lia.
Qed.

(** What was sent, and the state of the side, once the key was answered. *)
Definition afterKey (side : lside) (w : list (list Z)) : Prop :=
  match side with
  | LWaits h _ => w = [] /\ hPrivate h = zeroKey
  | LOpen _ _ _ _ => exists m4, w = [m4] /\ m4 <> []
  | LClosed | LPlainPeer _ => w = []
  end.

Lemma lRun_pe3 torrents padB padD : forall cs h b, hStep h = SPe3 -> hPrivate h = zeroKey ->
  exists side w, lRun h b torrents padB padD cs = Ok (side, w) /\ afterKey side w.
Proof.
  induction cs as [|c cs IH]; intros h b St P; [do 2 eexists; split; [reflexivity|split; auto]|].
  cbn [lRun]. unfold lDeliver. cbv zeta.
  assert (G : forall h1 b1, hStep h1 = SPe3 -> hPrivate h1 = zeroKey -> exists side w,
    bind (Ok (LWaits h1 b1, [])) (fun r => match r with
      | (LWaits h1 b1, w) => bind (lRun h1 b1 torrents padB padD cs) (fun q => Ok (fst q, w ++ snd q)) | _ => Ok r end) = Ok (side, w) /\ afterKey side w).
  { intros h1 b1 S1 P1. destruct (IH h1 b1 S1 P1) as (side & w & E & A). cbn [bind]. rewrite E. cbn [bind fst snd app]. eauto. }
  destruct (length (b ++ c) <? 20)%nat; [apply G; auto|].
  destruct (ListenerModel.startsAsHandshake (b ++ c)); [do 2 eexists; split; [reflexivity|reflexivity]|].
  unfold readAsListener. rewrite St. destruct (readPe3 (hSecret h) torrents (b ++ c)) as [n| |info t a r m].
  - cbn [bind]. rewrite St. apply G; auto.
  - cbn [bind hStep]. do 2 eexists. split; reflexivity.
  - destruct (m4_len r t padD) as (z & l & M). destruct (createPe4 r t padD) as [out m4]. cbn [snd] in M. subst m4.
    cbn [bind hStep]. do 2 eexists. split; [reflexivity|]. exists (z :: l). split; [reflexivity|discriminate].
Qed.

Lemma lRun_pe1 torrents padB padD y m2 : digits_ok y -> length y = 12%nat -> createExchangeMessage y padB = Ok m2 -> m2 <> [] ->
  forall cs h b, hStep h = SPe1 -> hPrivate h = y -> bytes_ok (b ++ concat cs) -> (length b < 96)%nat ->
  exists side w, lRun h b torrents padB padD cs = Ok (side, w) /\
    ((w = [] /\ (match side with LWaits h' b' => hStep h' = SPe1 /\ b' = b ++ concat cs /\ (length b' < 96)%nat | LPlainPeer _ => True | _ => False end)) \/
     (exists w', w = m2 :: w' /\ (96 <= length (b ++ concat cs))%nat /\ afterKey side w')).
Proof.
  intros D L M2 Ne. induction cs as [|c cs IH]; intros h b St P B Lb.
  { do 2 eexists. split; [reflexivity|]. left. cbn [concat]. rewrite app_nil_r. auto. }
  cbn [concat] in *. rewrite app_assoc in B |- *.
  cbn [lRun]. unfold lDeliver. cbv zeta.
  assert (G : (length (b ++ c) < 96)%nat -> exists side w,
    bind (Ok (LWaits h (b ++ c), [])) (fun r => match r with
      | (LWaits h1 b1, w) => bind (lRun h1 b1 torrents padB padD cs) (fun q => Ok (fst q, w ++ snd q)) | _ => Ok r end) = Ok (side, w) /\
    ((w = [] /\ (match side with LWaits h' b' => hStep h' = SPe1 /\ b' = (b ++ c) ++ concat cs /\ (length b' < 96)%nat | LPlainPeer _ => True | _ => False end)) \/
     (exists w', w = m2 :: w' /\ (96 <= length ((b ++ c) ++ concat cs))%nat /\ afterKey side w'))).
  { intros Lc. destruct (IH h (b ++ c) St P B Lc) as (side & w & E & A). cbn [bind]. rewrite E. cbn [bind fst snd app]. eauto. }
  destruct (Nat.ltb_spec (length (b ++ c)) 20); [apply G; lia|].
  destruct (ListenerModel.startsAsHandshake (b ++ c)); [do 2 eexists; split; [reflexivity|left; auto]|].
  unfold readAsListener. rewrite St. unfold KeySize. destruct (Nat.ltb_spec (length (b ++ c)) 96).
  - cbn [bind]. rewrite St. cbn [skipn]. apply G; auto.
  - rewrite P, M2. cbn [bind]. destruct (secret_defined y (b ++ c) D L) as (s & E).
    + apply Forall_app in B. tauto.
    + assumption.
    + rewrite E. cbn [bind hStep]. rewrite skipn_all.
      match goal with |- context[lRun ?h1 [] _ _ _ cs] => destruct (lRun_pe3 torrents padB padD cs h1 [] eq_refl eq_refl) as (side & w & E3 & A) end.
      cbn [bind]. rewrite E3. cbn [bind fst snd]. destruct m2 as [|z m2]; [contradiction|]. do 2 eexists. split; [reflexivity|].
      right. eexists. split; [reflexivity|]. split; [rewrite (app_length (b ++ c)); lia|exact A].
Qed.

(** Whatever bytes come in whatever pieces, no step of the side that was connected to is undefined. Before 96 bytes came nothing is sent and
    all of them are kept. Then its key is sent, once, and the private key is gone; a second message is sent when the handshake is over and at no
    other time. *)
Theorem C112_listener : forall y torrents padB padD chunks, digits_ok y -> length y = 12%nat -> bytes_ok (concat chunks) ->
  exists m2 side w, createExchangeMessage y padB = Ok m2 /\ lRun (newHandshake y) [] torrents padB padD chunks = Ok (side, w) /\
  match side with
  | LWaits h b => w = [] /\ hPrivate h = y /\ b = concat chunks /\ (length b < 96)%nat \/ w = [m2] /\ hPrivate h = zeroKey /\ (96 <= length (concat chunks))%nat
  | LOpen _ _ _ _ => (exists m4, w = [m2; m4] /\ m4 <> []) /\ (96 <= length (concat chunks))%nat
  | LClosed => w = [m2] /\ (96 <= length (concat chunks))%nat
  | LPlainPeer _ => w = [] \/ w = [m2]
  end.
Proof.
  intros y torrents padB padD chunks D L B. destruct (message_ok y padB D L) as (m2 & E & L2 & _ & _ & V). clear V.
  assert (Ne : m2 <> []) by (intros ->; discriminate L2).
  assert (K : forall cs h b side w, hStep h = SPe1 -> lRun h b torrents padB padD cs = Ok (side, w) ->
    match side with LWaits h' _ => hStep h' = SPe1 -> hPrivate h' = hPrivate h | _ => True end).
  { induction cs as [|c cs IH]; intros h b side w St R.
    - injection R as <- <-. auto.
    - cbn [lRun] in R. destruct (lDeliver h b c torrents padB padD) as [[sd ws]|] eqn:Dl; [|discriminate]. cbn [bind] in R.
      destruct sd as [h1 b1| | |]; try (injection R as <- <-; exact Logic.I).
      destruct (lRun h1 b1 torrents padB padD cs) as [[sd2 w2]|] eqn:R2; [|discriminate]. cbn [bind fst snd] in R. injection R as <- <-.
      unfold lDeliver in Dl. cbv zeta in Dl. destruct (_ <? 20)%nat.
      { injection Dl as <- <- <-. exact (IH _ _ _ _ St R2). }
      destruct (ListenerModel.startsAsHandshake _); [discriminate|]. unfold readAsListener in Dl. rewrite St in Dl.
      destruct (_ <? KeySize)%nat.
      { cbn [bind] in Dl. rewrite St in Dl. injection Dl as <- <- <-. exact (IH _ _ _ _ St R2). }
      destruct (createExchangeMessage (hPrivate h) padB); [|discriminate Dl]. cbn [bind] in Dl.
      destruct (createSecretFromRemoteKey (hPrivate h) (b ++ c)); [|discriminate Dl].
      cbn [bind hStep] in Dl. injection Dl as <- <- <-. destruct sd2 as [h2 b2| | |]; auto. intros S2. exfalso.
      clear -R2 S2. revert R2. match goal with |- lRun ?h1 ?b1 _ _ _ _ = _ -> _ => generalize h1 b1 (eq_refl : hStep h1 = SPe3) end.
      clear -S2. revert w2. induction cs as [|c cs IH]; intros w2 h b St R.
      + injection R as <- <- <-. congruence.
      + cbn [lRun] in R. destruct (lDeliver h b c torrents padB padD) as [[sd ws]|] eqn:Dl; [|discriminate]. cbn [bind] in R.
        destruct sd as [h1 b1| | |]; try discriminate R.
        destruct (lRun h1 b1 torrents padB padD cs) as [[sd3 w3]|] eqn:R3; [|discriminate]. cbn [bind fst snd] in R. injection R as -> <-.
        apply (IH w3 h1 b1); [|exact R3]. unfold lDeliver in Dl. cbv zeta in Dl. destruct (_ <? 20)%nat; [injection Dl as <- <- <-; exact St|].
        destruct (ListenerModel.startsAsHandshake _); [discriminate|]. unfold readAsListener in Dl. rewrite St in Dl.
        destruct (readPe3 _ _ _) as [n| |inf t a r m].
        * cbn [bind] in Dl. rewrite St in Dl. injection Dl as <- <- <-. exact St.
        * cbn [bind hStep] in Dl. discriminate.
        * destruct (createPe4 _ _ _). cbn [bind hStep] in Dl. discriminate. }
  destruct (lRun_pe1 torrents padB padD y m2 D L E Ne chunks (newHandshake y) [] eq_refl eq_refl B ltac:(cbn; lia)) as (side & w & R & A).
  exists m2, side, w. split; [exact E|]. split; [exact R|]. specialize (K chunks (newHandshake y) [] side w eq_refl R).
  cbn [app] in A. destruct A as [[-> A]|(w' & -> & A & Af)].
  - destruct side as [h b| |d|]; try contradiction.
    + left. destruct A as (S1 & Bf & Lb). cbn [newHandshake hPrivate] in K. auto.
    + auto.
  - destruct side as [h b| |d|]; cbn [afterKey] in Af.
    + destruct Af as [-> P]. right. auto.
    + subst w'. auto.
    + subst w'. auto.
    + destruct Af as (m4 & -> & N4). split; [|exact A]. exists m4. auto.
Qed.
Print Assumptions C112_listener.

(** The initiator: nothing is undefined either, nothing is sent before the 96 bytes of the key are there, and after that message 3, once. *)
Theorem C112_initiator : forall x info message padA padC takes chunks, digits_ok x -> length x = 12%nat -> bytes_ok (concat chunks) ->
  exists h m1 side w, initiate (newHandshake x) info message padA = Ok (h, m1) /\ iRun h [] padC takes chunks = Ok (side, w) /\
  (if (length (concat chunks) <? 96)%nat then side = IWaits h (concat chunks) /\ w = []
   else exists secret, w = [snd (createPe3 secret info padC message)] /\
     match side with
     | IWaits h1 _ => hPrivate h1 = zeroKey /\ hOut h1 = fst (createPe3 secret info padC message)
     | IOpen _ out _ => out = fst (createPe3 secret info padC message)
     | _ => True
     end).
Proof.
  intros x info message padA padC takes chunks D L B.
  destruct (message_ok x padA D L) as (m1 & E & _). unfold initiate. cbn [newHandshake hPrivate]. rewrite E. cbn [bind].
  assert (P4 : forall cs h b, hStep h = SPe4 -> hPrivate h = zeroKey -> exists side, iRun h b padC takes cs = Ok (side, []) /\
    match side with IWaits h1 _ => hPrivate h1 = zeroKey /\ hOut h1 = hOut h | IOpen _ out _ => out = hOut h | _ => True end).
  { induction cs as [|c cs IH]; intros h b St P; [eexists; split; [reflexivity|split; [exact P|reflexivity]]|].
    cbn [iRun]. rewrite (iDeliver_pe4 h b c padC takes St). destruct (deliverPe4 (hIn h) b c takes) as [in1 b1| |st v|r]; cbn [bind].
    - match goal with |- context[iRun ?h1 b1 _ _ cs] => destruct (IH h1 b1 eq_refl P) as (side & R & A) end.
      rewrite R. cbn [bind fst snd app]. exists side. split; [reflexivity|]. destruct side; cbn [hOut] in A; auto.
    - eexists. split; [reflexivity|exact Logic.I].
    - eexists. split; [reflexivity|reflexivity].
    - eexists. split; [reflexivity|exact Logic.I]. }
  set (h := {| hStep := SPe2; hPrivate := x; hSecret := []; hInfo := info; hMessage := message;
    hIn := noCipher; hOut := noCipher; hType := TypeRC4 |}).
  assert (G : forall cs b, bytes_ok (b ++ concat cs) -> (length b < 96)%nat -> exists side w, iRun h b padC takes cs = Ok (side, w) /\
    (if (length (b ++ concat cs) <? 96)%nat then side = IWaits h (b ++ concat cs) /\ w = []
     else exists secret, w = [snd (createPe3 secret info padC message)] /\
     match side with
     | IWaits h1 _ => hPrivate h1 = zeroKey /\ hOut h1 = fst (createPe3 secret info padC message)
     | IOpen _ out _ => out = fst (createPe3 secret info padC message)
     | _ => True
     end)).
  { induction cs as [|c cs IH]; intros b Bb Lb.
    - cbn [concat iRun] in *. rewrite app_nil_r in *. destruct (Nat.ltb_spec (length b) 96); [|lia]. do 2 eexists. split; [reflexivity|auto].
    - cbn [concat] in *. rewrite app_assoc in Bb |- *. cbn [iRun]. unfold iDeliver. cbv zeta. unfold readAsInitiator. change (hStep h) with SPe2. cbv iota. unfold KeySize.
      destruct (Nat.ltb_spec (length (b ++ c)) 96) as [Lc|Lc].
      + cbn [bind]. change (hStep h) with SPe2. cbn [bind skipn]. destruct (IH (b ++ c) Bb Lc) as (side & w & R & A). rewrite R. cbn [bind fst snd app]. eauto.
      + destruct (secret_defined x (b ++ c) D L) as (s & Es); [apply Forall_app in Bb; tauto|exact Lc|].
        change (hPrivate h) with x. change (hInfo h) with info. change (hMessage h) with message. rewrite Es. cbn [bind].
        destruct (m3_some (Export s 96) info padC message) as (z & l & M).
        destruct (createPe3 (Export s 96) info padC message) as [out m3] eqn:C3. cbn [snd] in M. subst m3.
        cbn [bind hStep]. rewrite skipn_all.
        match goal with |- context[iRun ?h1 [] _ _ cs] => destruct (P4 cs h1 [] eq_refl eq_refl) as (side & R & A) end.
        rewrite R. cbn [bind fst snd app]. do 2 eexists. split; [reflexivity|].
        destruct (Nat.ltb_spec (length ((b ++ c) ++ concat cs)) 96) as [Lx2|_]; [rewrite (app_length (b ++ c)) in Lx2; lia|].
        exists (Export s 96). rewrite C3. cbn [fst snd hOut] in *. split; [reflexivity|exact A]. }
  destruct (G chunks [] B ltac:(cbn; lia)) as (side & w & R & A). exists h, m1, side, w. auto.
Qed.
Print Assumptions C112_initiator.

Transparent rcStart rc4_encode rc4_decode SHA1 Powm Export.

(** Private keys of 0, which make the secret 1. *)
Definition key0 : list Z := repeat 0 12.
Definition secret0 : list Z := repeat 0 95 ++ [1].
Definition info0 : list Z := repeat 7 20.

Lemma key0_ok : digits_ok key0 /\ length key0 = 12%nat /\ value key0 = 0.
Proof. repeat split. apply Forall_forall. intros z H. apply repeat_spec in H. lia. Qed.

Lemma one_number r : digits_ok r -> length r = 12%nat -> value r = 1 -> r = 1 :: repeat 0 11.
Proof. intros D L V. apply value_inj; auto. repeat constructor; lia. Qed.

Lemma big_primes : 1 mod value pePrimes = 1 /\ 2 ^ 64 <= value pePrimes.
Proof. split; [vm_compute; reflexivity|apply Z.leb_le; vm_compute; reflexivity]. Qed.

Lemma message0 pad : createExchangeMessage key0 pad = Ok (secret0 ++ pad).
Proof.
  destruct key0_ok as (D & L & V). destruct primes_ok as (Dp & Lp & _). destruct big_primes as [M B].
  destruct (ofSmall_ok 2 12 ltac:(lia) ltac:(lia)) as (G1 & G2 & _).
  destruct (Powm_ok peGenerator key0 pePrimes G2 D Dp ltac:(rewrite Lp; exact G1) ltac:(congruence)) as (r & E & Lr & Dr & Vr); [right; exact B|right; lia|].
  rewrite V, Z.pow_0_r, M in Vr. rewrite Lp in Lr. apply one_number in Vr; [|assumption|assumption]. subst r.
  unfold createExchangeMessage. rewrite E. cbn [bind]. reflexivity.
Qed.

Lemma secret0_ok key : bytes_ok (firstn 96 key) -> length (firstn 96 key) = 96%nat -> createSecretFromRemoteKey key0 key = Ok (1 :: repeat 0 11).
Proof.
  intros Bk Lk. destruct key0_ok as (D & L & V). destruct big_primes as [M B].
  destruct (remote_secret_ok key0 key _ D L Bk Lk eq_refl) as (s & E & Ds & Ls & Vs).
  rewrite V, Z.pow_0_r, M in Vs. apply one_number in Vs; [|assumption|assumption]. subst s. exact E.
Qed.

(** The tail of the padding of message 2 in a piece of its own: it is taken for the beginning of message 4, which moves the cipher on, and the
    initiator waits for ever although all was sent. In one piece the padding does no harm. *)
Theorem C112_padding_refuted : exists x y padB padD info h m1 m2 m3 m4,
  digits_ok x /\ digits_ok y /\ length x = 12%nat /\ length y = 12%nat /\ is_info info /\
  initiate (newHandshake x) info [] [] = Ok (h, m1) /\
  (exists l, lRun (newHandshake y) [] [info] padB padD [m1; m3] = Ok (LOpen info l (fst (createPe4 (rcStart invokerB secret0 info) TypeRC4 padD)) [], [m2; m4])) /\
  (exists st out, iRun h [] [] (fun _ => 0%nat) [m2; m4] = Ok (IOpen st out [], [m3])) /\
  (exists h1 b, iRun h [] [] (fun _ => 0%nat) [firstn 96 m2; skipn 96 m2; m4] = Ok (IWaits h1 b, [m3])).
Proof.
  exists key0, key0, (repeat 5 14), [], info0. eexists.
  exists secret0, (secret0 ++ repeat 5 14), (snd (createPe3 secret0 info0 [] [])), (snd (createPe4 (rcStart invokerB secret0 info0) TypeRC4 [])).
  destruct key0_ok as (D & L & _).
  refine (conj D (conj D (conj L (conj L (conj _ (conj _ (conj _ (conj _ _)))))))).
  - split; [reflexivity|]. apply Forall_forall. intros z H. apply repeat_spec in H. unfold is_byte. lia.
  - vm_compute. reflexivity.
  - eexists. vm_compute. reflexivity.
  - do 2 eexists. vm_compute. reflexivity.
  - do 2 eexists. vm_compute. reflexivity.
Qed.
Print Assumptions C112_padding_refuted.

(** One look at each of [n] positions from [lo] on. *)
Definition clear (pat : list Z) (lo n : nat) (d : list Z) : bool :=
  forallb (fun k => negb (list_eqb (firstn (length pat) (skipn k d)) pat)) (seq lo n).
Lemma clear_ok pat lo n d : clear pat lo n d = true -> forall k, (lo <= k < lo + n)%nat -> ~ stands_at pat k d.
Proof.
  intros F k K (a & b & E & L). unfold clear in F. rewrite forallb_forall in F. specialize (F k ltac:(apply in_seq; lia)).
  assert (X : firstn (length pat) (skipn k d) = pat).
  { subst d k. rewrite skipn_app_exact, firstn_app_exact. reflexivity. }
  rewrite X, list_eqb_refl in F. discriminate.
Qed.

(** Streams that meet the conditions of the two halves of C112_agree_partial: in pieces of 50, 47 and the rest, with paddings of 3 and 2 bytes. *)
Example C112_conditions :
  let m3 := snd (createPe3 secret0 info0 [8; 8] [1; 2; 3]) in
  let m4 := snd (createPe4 (rcStart invokerB secret0 info0) TypeRC4 [6]) in
  let out4 := fst (createPe4 (rcStart invokerB secret0 info0) TypeRC4 [6]) in
  let s1 := (secret0 ++ [5; 5; 5]) ++ m3 in
  let s2 := (secret0 ++ [4; 4]) ++ m4 ++ snd (rc4_encode out4 [9; 9]) in
  reaches 96 [firstn 50 s1] (slice 50 47 s1) /\ lookup secret0 info0 [info0] = Some info0 /\
  (forall k, ~ stands_at plainStart k s1) /\ (forall k, (96 <= k < 99)%nat -> ~ stands_at (SHA1 (tagReq 49 ++ secret0)) k s1) /\
  reaches 96 [firstn 50 s2] (slice 50 47 s2) /\ (forall k, (96 <= k < 98)%nat -> ~ stands_at (firstn 8 m4) k s2).
Proof.
  cbv zeta. refine (conj _ (conj _ (conj _ (conj _ (conj _ _))))).
  - split; vm_compute; lia.
  - vm_compute. reflexivity.
  - intros k S1. assert (K : (k < 160)%nat).
    { destruct S1 as (a & b & E & L). apply (f_equal (@length Z)) in E. rewrite !app_length in E.
      match type of E with (length secret0 + _ + length ?m = _)%nat => assert (Lm : length m = 61%nat) by (vm_compute; reflexivity); rewrite Lm in E end.
      change (length secret0) with 96%nat in E. change (length plainStart) with 20%nat in E. cbn [length] in E. lia. }
    revert S1. apply (clear_ok _ 0 160); [vm_compute; reflexivity|lia].
  - intros k K. apply (clear_ok _ 96 3); [vm_compute; reflexivity|lia].
  - split; vm_compute; lia.
  - intros k K. apply (clear_ok _ 96 2); [vm_compute; reflexivity|lia].
Qed.
