(** The parser on arbitrary bytes with zero bytes behind them. *)
From Verif Require Import Base BaseLemmas Dec DecLemmas BencodeModel BencodeSpec BencodeProofs.

Lemma readDigits_stop a b : forall acc n, exists v k, readDigits (a ++ 0 :: b) acc n = Some (v, k) /\ (n <= k <= n + length a)%nat.
Proof.
  induction a as [|c a IH]; intros acc n; cbn [app readDigits length].
  - exists acc, n. split; [reflexivity|lia].
  - destruct (isDigit c).
    + destruct (IH (acc * 10 + (c - 48)) (S n)) as (v & k & -> & H). exists v, k. split; [reflexivity|lia].
    + exists acc, n. split; [reflexivity|lia].
Qed.

Lemma skipSpaces_stop a b : forall n, exists a' k, skipSpaces (a ++ 0 :: b) n = (a' ++ 0 :: b, k) /\ (k + length a' = n + length a)%nat.
Proof.
  induction a as [|c a IH]; intros n; cbn [app skipSpaces length].
  - exists [], n. split; [reflexivity|simpl; lia].
  - destruct (isSpace c).
    + destruct (IH (S n)) as (a' & k & -> & H). exists a', k. split; [reflexivity|lia].
    + exists (c :: a), n. split; [reflexivity|simpl; lia].
Qed.

Lemma strtoz_stop a b : exists v n, strtoz (a ++ 0 :: b) = Some (v, n) /\ (n <= length a)%nat.
Proof.
  unfold strtoz. destruct (skipSpaces_stop a b 0) as (a' & k & -> & H).
  destruct a' as [|c a']; cbn [app].
  - change (0 =? 45) with false. change (0 =? 43) with false. cbv iota. cbn [readDigits].
    change (isDigit 0) with false. cbv iota. exists 0, 0%nat. split; [reflexivity|lia].
  - cbn [length] in H. destruct (c =? 45); [|destruct (c =? 43)].
    + destruct (readDigits_stop a' b 0 0) as (v & n & -> & Hn).
      destruct n; [exists 0, 0%nat; split; [reflexivity|lia]|]. eexists; eexists. split; [reflexivity|lia].
    + destruct (readDigits_stop a' b 0 0) as (v & n & -> & Hn).
      destruct n; [exists 0, 0%nat; split; [reflexivity|lia]|]. eexists; eexists. split; [reflexivity|lia].
    + destruct (readDigits_stop (c :: a') b 0 0) as (v & n & E & Hn). cbn [app] in E. rewrite E.
      cbn [length] in Hn.
      destruct n; [exists 0, 0%nat; split; [reflexivity|lia]|]. eexists; eexists. split; [reflexivity|lia].
Qed.

(** Every decimal number that can be read in the input is between 0 and 2^31 - 1. *)
Definition tame (data : list Z) : Prop := forall i v n, (i < length data)%nat ->
  strtoz (skipn i data ++ [0]) = Some (v, n) -> 0 <= v < 2147483648.

(** More zero bytes do not change what is read. *)
Lemma readDigits_more a b : forall acc n, readDigits (a ++ 0 :: b) acc n = readDigits (a ++ [0]) acc n.
Proof. induction a as [|c a IH]; intros acc n; cbn [app readDigits]; [reflexivity|]. destruct (isDigit c); auto. Qed.
Lemma skipSpaces_more a b : forall n, exists a' k, skipSpaces (a ++ 0 :: b) n = (a' ++ 0 :: b, k) /\
  skipSpaces (a ++ [0]) n = (a' ++ [0], k).
Proof.
  induction a as [|c a IH]; intros n; cbn [app skipSpaces].
  - exists [], n. auto.
  - destruct (isSpace c); [apply IH|]. exists (c :: a), n. auto.
Qed.
Lemma strtoz_more a b : strtoz (a ++ 0 :: b) = strtoz (a ++ [0]).
Proof.
  unfold strtoz. destruct (skipSpaces_more a b 0) as (a' & k & -> & ->).
  destruct a' as [|c a']; cbn [app].
  - change (0 =? 45) with false. change (0 =? 43) with false. cbv iota. reflexivity.
  - destruct (c =? 45); [now rewrite readDigits_more|]. destruct (c =? 43); [now rewrite readDigits_more|].
    pose proof (readDigits_more (c :: a') b 0 0) as E. cbn [app] in E. now rewrite E.
Qed.

Section Safe.
Variable data : list Z.
Hypothesis Tame : tame data.
Hypothesis Short : zlen data < 65536.
Let e := zlen data.
Let m := data ++ repeat 0 (length data + 2).

Lemma mlen : zlen m = 2 * e + 2.
Proof. unfold m, e. rewrite zlen_app. unfold zlen. rewrite repeat_length. lia. Qed.

Lemma rd_ok p : 0 <= p < 2 * e + 2 -> exists c, rdAt m p = Val c /\ (e <= p -> c = 0).
Proof.
  intros H. pose proof mlen. unfold rdAt, memFrom.
  destruct (Z.leb_spec 0 p); [|lia]. destruct (Z.ltb_spec p (zlen m)); [|lia]. cbn [andb].
  destruct (skipn (Z.to_nat p) m) as [|c l] eqn:E.
  - apply (f_equal (@length Z)) in E. rewrite skipn_length in E. cbn [length] in E. unfold zlen in *. lia.
  - exists c. split; [reflexivity|]. intros Hp.
    assert (nth (Z.to_nat p) m 0 = c).
    { rewrite <- (firstn_skipn (Z.to_nat p) m), E. rewrite app_nth2; rewrite firstn_length; unfold zlen in *.
      - replace (Z.to_nat p - Nat.min (Z.to_nat p) (length m))%nat with 0%nat by lia. reflexivity.
      - lia. }
    subst c. unfold m. rewrite app_nth2 by (unfold e, zlen in *; lia). apply nth_repeat.
Qed.

Lemma ne_ok p : 0 <= p < 2 * e + 2 -> exists b, notEnd m e p = Val b /\ (b = true -> p < e).
Proof.
  intros H. unfold notEnd. destruct (rd_ok p H) as (c & -> & _). cbn [obind].
  eexists. split; [reflexivity|]. lia.
Qed.

Definition text_ok (o : obj) : Prop := otyp o = TText -> 0 <= odata o /\ 0 <= osize o /\ odata o + osize o <= e + 1.
Definition inv (objs : list obj) (p : Z) : Prop := zlen objs <= Z.min p e /\ Forall text_ok objs.

Lemma parseString_safe objs p : 0 <= p < e -> inv objs p ->
  exists b objs' p', parseString m e objs p = Val (b, objs', p') /\
    (b = false -> objs' = objs /\ p' = e) /\
    (b = true -> inv objs' p' /\ p < p' <= e + 1 /\ exists o, objs' = objs ++ [o]).
Proof using Tame.
  intros Hp [I1 I2]. unfold parseString. pose proof mlen as ML.
  assert (M : memFrom m p = Some (skipn (Z.to_nat p) data ++ 0 :: repeat 0 (length data + 1))).
  { unfold memFrom. destruct (Z.leb_spec 0 p); [|lia]. destruct (Z.ltb_spec p (zlen m)); [|lia]. cbn [andb]. f_equal.
    unfold m. rewrite skipn_app. replace (Z.to_nat p - length data)%nat with 0%nat by (unfold e, zlen in *; lia).
    rewrite Nat.add_succ_r. reflexivity. }
  rewrite M. destruct (strtoz_stop (skipn (Z.to_nat p) data) (repeat 0 (length data + 1))) as (v & n & E & Hn).
  assert (V : 0 <= v < 2147483648).
  { rewrite strtoz_more in E. refine (Tame (Z.to_nat p) v n _ E). unfold e, zlen in *. lia. }
  rewrite skipn_length in Hn. unfold strtol. rewrite E. cbv iota beta.
  assert (C : clampLong v = v) by (unfold clampLong; lia). rewrite C, i32_id by lia.
  assert (P1 : 0 <= p + Z.of_nat n <= e) by (unfold e, zlen in *; lia).
  destruct (rd_ok (p + Z.of_nat n)) as (c & -> & _); [lia|]. cbn [obind].
  destruct (negb (c =? 58) || (e - (p + Z.of_nat n) <? v)) eqn:Q.
  - eexists; eexists; eexists. split; [reflexivity|]. split; [auto|discriminate].
  - eexists; eexists; eexists. split; [reflexivity|]. split; [discriminate|]. intros _. split; [|split].
    + split.
      * rewrite zlen_app, zlen_cons, zlen_nil. lia.
      * apply Forall_app. split; [assumption|]. constructor; [|constructor]. intros _. cbn [odata osize]. lia.
    + lia.
    + eexists. reflexivity.
Qed.

Lemma scanInt_safe l : forall p size, p <= e -> (Z.to_nat (e - p) < length l)%nat ->
  exists c p' s', scanInt e l p size = Val (c, p', s') /\ p <= p' <= e.
Proof.
  induction l as [|c l IH]; intros p size Hp Hl; [simpl in Hl; lia|]. cbn [scanInt].
  destruct ((isDigit c || (c =? 45) && (size =? 0)) && negb (p =? e)) eqn:Q.
  - destruct (IH (p + 1) (size + 1)) as (c' & p' & s' & -> & H); [lia|simpl in Hl; lia|].
    eexists; eexists; eexists. split; [reflexivity|]. lia.
  - eexists; eexists; eexists. split; [reflexivity|]. lia.
Qed.

Lemma parseInt_safe objs p : 0 <= p < e -> inv objs p ->
  exists b objs' p', parseInt m e objs p = Val (b, objs', p') /\
    (b = false -> objs' = objs /\ p' = e) /\
    (b = true -> inv objs' p' /\ p < p' <= e + 1 /\ exists o, objs' = objs ++ [o]).
Proof.
  intros Hp [I1 I2]. unfold parseInt. pose proof mlen as ML.
  unfold memFrom. destruct (Z.leb_spec 0 (p + 1)); [|lia]. destruct (Z.ltb_spec (p + 1) (zlen m)); [|lia]. cbn [andb].
  destruct (scanInt_safe (skipn (Z.to_nat (p + 1)) m) (p + 1) 0) as (c & p' & s' & -> & H1); [lia| |].
  { rewrite skipn_length. unfold zlen in ML. lia. }
  cbn [obind]. destruct (negb (c =? 101)).
  - eexists; eexists; eexists. split; [reflexivity|]. split; [auto|discriminate].
  - eexists; eexists; eexists. split; [reflexivity|]. split; [discriminate|]. intros _. split; [|split].
    + split.
      * rewrite zlen_app, zlen_cons, zlen_nil. lia.
      * apply Forall_app. split; [assumption|]. constructor; [|constructor]. intros X. discriminate X.
    + lia.
    + eexists. reflexivity.
Qed.

Lemma modify_len i f l : length (modify i f l) = length l.
Proof. apply upd_length. Qed.

Lemma modify_ok i f l : (forall o, text_ok o -> text_ok (f o)) -> Forall text_ok l -> Forall text_ok (modify i f l).
Proof.
  intros Hf Hl. unfold modify. destruct (Nat.lt_ge_cases i (length l)) as [L|L].
  - apply Forall_upd; [assumption|]. apply Hf. rewrite Forall_forall in Hl. apply Hl, nth_In, L.
  - rewrite upd_oob by assumption. assumption.
Qed.

Lemma setNext_ok z o : text_ok o -> text_ok (setNext z o).
Proof. exact (fun H => H). Qed.

Lemma modify_next_inv i z objs p : inv objs p -> inv (modify i (setNext z) objs) p.
Proof.
  intros [H1 H2]. split; [unfold zlen in *; rewrite modify_len; exact H1|]. apply modify_ok; [intros; now apply setNext_ok|assumption].
Qed.

Definition B (p : Z) : Z := 2 * e + 1 - p.

(** Objects are only added; the types of the old ones stay. *)
Definition ext (a b : list obj) : Prop := exists t, map otyp b = map otyp a ++ t.

Lemma ext_refl a : ext a a.
Proof. exists []. now rewrite app_nil_r. Qed.
Lemma ext_trans a b c : ext a b -> ext b c -> ext a c.
Proof. intros [t E] [u F]. exists (t ++ u). now rewrite F, E, app_assoc. Qed.
Lemma ext_app a b : ext a (a ++ b).
Proof. exists (map otyp b). apply map_app. Qed.
Lemma map_upd_same {A C} (f : A -> C) i x l d : f x = f (nth i l d) -> map f (upd i x l) = map f l.
Proof.
  revert i. induction l as [|y l IH]; intros i H; [destruct i; reflexivity|].
  destruct i as [|i]; cbn [upd map nth] in *; [now rewrite H|]. now rewrite IH.
Qed.
Lemma modify_types i f l : (forall o, otyp (f o) = otyp o) -> map otyp (modify i f l) = map otyp l.
Proof. intros H. unfold modify. apply (map_upd_same _ _ _ _ noObj). apply H. Qed.
Lemma ext_modify a b i z : ext a b -> ext a (modify i (setNext z) b).
Proof. intros [t E]. exists t. rewrite modify_types; [assumption|reflexivity]. Qed.
Lemma ext_typ a b i : ext a b -> (i < length a)%nat -> otyp (nth i b noObj) = otyp (nth i a noObj).
Proof.
  intros [t E] H. rewrite <- (map_nth otyp b), <- (map_nth otyp a), E, app_nth1; [reflexivity|]. now rewrite map_length.
Qed.
Lemma ext_len a b : ext a b -> (length a <= length b)%nat.
Proof. intros [t E]. apply (f_equal (@length _)) in E. rewrite app_length, !map_length in E. lia. Qed.

Definition ip_ok (fuel : nat) : Prop := forall objs p, 0 <= p <= e + 1 -> inv objs p ->
  (2 * Z.to_nat (e - p) + 2 <= fuel)%nat ->
  exists o objs' p', internalParse m e fuel objs p = Val (o, objs', p') /\ inv objs' p' /\ ext objs objs' /\
    (if p <? e then p < p' <= B p else o = None /\ p' = e).

Definition loop_post (p p' : Z) : Prop := p <= p' <= Z.max p (B p).

Definition ll_ok (fuel : nat) : Prop := forall objs p count, 0 <= p <= 2 * e + 1 -> inv objs p ->
  (2 * Z.to_nat (e - p) + 3 <= fuel)%nat ->
  exists objs' p' c', listLoop m e fuel objs p count = Val (objs', p', c') /\ inv objs' p' /\ ext objs objs' /\ loop_post p p'.

Definition dl_ok (fuel : nat) : Prop := forall objs p count, 0 <= p <= 2 * e + 1 -> inv objs p ->
  (2 * Z.to_nat (e - p) + 3 <= fuel)%nat ->
  exists objs' p' c', dictLoop m e fuel objs p count = Val (objs', p', c') /\ inv objs' p' /\ ext objs objs' /\ loop_post p p'.

Lemma e_nonneg : 0 <= e. Proof. apply zlen_nonneg. Qed.

Lemma close_ok root objs p count p0 : 0 <= p0 < e -> p0 + 1 <= p <= Z.max (p0 + 1) (B (p0 + 1)) -> inv objs p ->
  otyp (nth root objs noObj) <> TText ->
  exists objs' p', closeContainer m e root (objs, p, count) = Val (Some root, objs', p') /\ inv objs' p' /\
    ext objs objs' /\ p0 < p' <= B p0.
Proof.
  intros H0 Hp [I1 I2] HT. unfold closeContainer, B in *.
  destruct (ne_ok (p + 1)) as (b & -> & _); [lia|]. cbn [obind].
  eexists; eexists. split; [reflexivity|]. split; [|split; [exists []; rewrite app_nil_r; now rewrite modify_types|lia]]. split.
  - unfold zlen in *. rewrite modify_len. lia.
  - unfold modify. destruct (Nat.lt_ge_cases root (length objs)) as [L|L].
    + apply Forall_upd; [assumption|]. intros T. cbn [otyp setNext setSize] in T. contradiction.
    + rewrite upd_oob by assumption. assumption.
Qed.

Lemma all_safe fuel : ip_ok fuel /\ ll_ok fuel /\ dl_ok fuel.
Proof using Tame Short.
  pose proof e_nonneg as E0.
  induction fuel as [|f (IP & LL & DL)].
  { split; [|split]; intros objs p; intros; lia. }
  split; [|split].
  - intros objs p Hp I F. rewrite internalParse_S.
    destruct (rd_ok p) as (c & -> & Hc); [lia|]. cbn [obind].
    destruct (Z.ltb_spec p e) as [L|L].
    2:{ rewrite Hc by lia. change (isDigit 0) with false. cbn.
        exists None, objs, e. split; [reflexivity|]. split; [|split; [apply ext_refl|auto]].
        destruct I. split; [lia|assumption]. }
    assert (I1 : forall t, t <> TText -> inv (objs ++ [newContainer t]) (p + 1)).
    { intros t Ht. destruct I as [H1 H2]. split; [rewrite zlen_app, zlen_cons, zlen_nil; lia|].
      apply Forall_app. split; [assumption|]. constructor; [|constructor]. intros T. cbn in T. contradiction. }
    destruct (isDigit c).
    { destruct (parseString_safe objs p) as (b & objs' & p' & -> & Hf & Ht); [lia|assumption|]. cbn [obind].
      eexists; eexists; eexists. split; [reflexivity|]. destruct b.
      - destruct Ht as (H1 & H2 & o & ->); [reflexivity|]. split; [assumption|]. split; [apply ext_app|]. unfold B. lia.
      - destruct Hf as (-> & ->); [reflexivity|]. destruct I as [H1 H2]. split; [split; [lia|assumption]|]. split; [apply ext_refl|]. unfold B. lia. }
    destruct (c =? 105).
    { destruct (parseInt_safe objs p) as (b & objs' & p' & -> & Hf & Ht); [lia|assumption|]. cbn [obind].
      eexists; eexists; eexists. split; [reflexivity|]. destruct b.
      - destruct Ht as (H1 & H2 & o & ->); [reflexivity|]. split; [assumption|]. split; [apply ext_app|]. unfold B. lia.
      - destruct Hf as (-> & ->); [reflexivity|]. destruct I as [H1 H2]. split; [split; [lia|assumption]|]. split; [apply ext_refl|]. unfold B. lia. }
    destruct (c =? 108).
    { destruct (LL (objs ++ [newContainer TList]) (p + 1) 0) as (o1 & p1 & c1 & -> & J & X & P); [lia|apply I1; discriminate|lia|].
      cbn [obind]. destruct (close_ok (length objs) o1 p1 c1 p) as (o2 & p2 & -> & J2 & X2 & P2); [lia|exact P|assumption| |].
      { rewrite (ext_typ _ _ _ X) by (rewrite app_length; simpl; lia). rewrite app_nth2, Nat.sub_diag by lia. discriminate. }
      eexists; eexists; eexists. split; [reflexivity|]. split; [assumption|]. split; [|assumption].
      eapply ext_trans; [|exact X2]. eapply ext_trans; [|exact X]. apply ext_app. }
    destruct (c =? 100).
    { destruct (DL (objs ++ [newContainer TDict]) (p + 1) 0) as (o1 & p1 & c1 & -> & J & X & P); [lia|apply I1; discriminate|lia|].
      cbn [obind]. destruct (close_ok (length objs) o1 p1 c1 p) as (o2 & p2 & -> & J2 & X2 & P2); [lia|exact P|assumption| |].
      { rewrite (ext_typ _ _ _ X) by (rewrite app_length; simpl; lia). rewrite app_nth2, Nat.sub_diag by lia. discriminate. }
      eexists; eexists; eexists. split; [reflexivity|]. split; [assumption|]. split; [|assumption].
      eapply ext_trans; [|exact X2]. eapply ext_trans; [|exact X]. apply ext_app. }
    exists None, objs, e. split; [reflexivity|]. destruct I as [H1 H2].
    split; [split; [lia|assumption]|]. split; [apply ext_refl|]. unfold B. lia.
  - intros objs p count Hp I F. rewrite listLoop_S.
    destruct (ne_ok p) as (b & -> & Hb); [lia|]. cbn [obind]. destruct b; cbn [negb].
    2:{ exists objs, p, count. split; [reflexivity|]. split; [assumption|]. split; [apply ext_refl|]. unfold loop_post. lia. }
    specialize (Hb eq_refl).
    destruct (IP objs p) as (o & o1 & p1 & -> & J & X & P); [lia|assumption|lia|]. cbn [obind].
    rewrite (proj2 (Z.ltb_lt p e) Hb) in P.
    assert (Hend : forall o2 c2, inv o2 p1 -> ext objs o2 ->
      exists objs' p' c', listLoop m e f o2 p1 c2 = Val (objs', p', c') /\ inv objs' p' /\ ext objs objs' /\ loop_post p p').
    { intros o2 c2 J2 X2. destruct (LL o2 p1 c2) as (o3 & p3 & c3 & -> & J3 & X3 & P3); [unfold B in P; lia|assumption|lia|].
      eexists; eexists; eexists. split; [reflexivity|]. split; [assumption|]. split; [eapply ext_trans; eassumption|].
      unfold loop_post, B in *. lia. }
    destruct o as [i|].
    + destruct (ne_ok p1) as (b1 & -> & _); [unfold B in P; lia|]. cbn [obind].
      apply Hend; [now apply modify_next_inv|now apply ext_modify].
    + now apply Hend.
  - intros objs p count Hp I F. rewrite dictLoop_S.
    destruct (ne_ok p) as (b & -> & Hb); [lia|]. cbn [obind]. destruct b; cbn [negb].
    2:{ exists objs, p, count. split; [reflexivity|]. split; [assumption|]. split; [apply ext_refl|]. unfold loop_post. lia. }
    specialize (Hb eq_refl).
    assert (Hend : forall o2 p2 c2, p < p2 <= B p -> inv o2 p2 -> ext objs o2 ->
      exists objs' p' c', dictLoop m e f o2 p2 c2 = Val (objs', p', c') /\ inv objs' p' /\ ext objs objs' /\ loop_post p p').
    { intros o2 p2 c2 P2 J2 X2. destruct (DL o2 p2 c2) as (o3 & p3 & c3 & -> & J3 & X3 & P3); [unfold B in *; lia|assumption|lia|].
      eexists; eexists; eexists. split; [reflexivity|]. split; [assumption|]. split; [eapply ext_trans; eassumption|].
      unfold loop_post, B in *. lia. }
    destruct (parseString_safe objs p) as (b & o1 & p1 & -> & Hf & Ht); [lia|assumption|]. cbn [obind]. destruct b.
    + destruct Ht as (J & P & o & ->); [reflexivity|].
      destruct (IP (objs ++ [o]) p1) as (oo & o2 & p2 & -> & J2 & X2 & P2); [lia|assumption|lia|]. cbn [obind].
      assert (Q : p < p2 <= B p) by (destruct (Z.ltb_spec p1 e); unfold B in *; lia).
      assert (X3 : ext objs o2) by (eapply ext_trans; [apply ext_app|exact X2]).
      destruct oo as [i|]; [|now apply Hend].
      assert (Z0 : u16 (zlen (objs ++ [o])) = zlen (objs ++ [o])).
      { unfold u16. destruct J as [J1 _]. pose proof (zlen_nonneg (objs ++ [o])). apply Z.mod_small. fold e in Short. lia. }
      destruct (Z.eqb_spec (u16 (zlen (objs ++ [o]))) 0) as [Z1|Z1].
      { rewrite Z0, zlen_app, zlen_cons, zlen_nil in Z1. pose proof (zlen_nonneg objs). lia. }
      destruct (ne_ok p2) as (b1 & -> & _); [unfold B in *; lia|]. cbn [obind].
      apply Hend; [assumption|now do 2 apply modify_next_inv|now do 2 apply ext_modify].
    + destruct Hf as (-> & ->); [reflexivity|]. apply Hend; [unfold B; lia| |apply ext_refl].
      destruct I as [H1 H2]. split; [lia|assumption].
Qed.

Theorem parse_safe fuel : (2 * length data + 2 <= fuel)%nat ->
  exists r, parse fuel m (zlen data) = Val r /\
    Forall (fun o => otyp o = TText -> 0 <= odata o /\ 0 <= osize o /\ odata o + osize o <= zlen data + 1) (pobjs r) /\
    0 <= pend r <= 2 * zlen data + 1.
Proof using Tame Short.
  intros F. pose proof e_nonneg as E0. unfold parse.
  destruct (proj1 (all_safe fuel) [] 0) as (o & o1 & p1 & E & J & X & P).
  - lia.
  - split; [rewrite zlen_nil; lia|constructor].
  - unfold e, zlen. lia.
  - fold e. rewrite E. cbn [obind]. eexists. split; [reflexivity|]. cbn [pobjs pend].
    split; [exact (proj2 J)|]. destruct (Z.ltb_spec 0 e); unfold B in *; lia.
Qed.
End Safe.
