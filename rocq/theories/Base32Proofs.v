From Verif Require Import Base BaseLemmas Base32Model Base32Spec.

Definition is5 (v : Z) : Prop := 0 <= v < 32.

Lemma b32Char_spec d : is5 d -> b32Char (b32_char d) = Some (d, false).
Proof.
  intros H. unfold is5 in H. unfold b32Char, b32_char, toUpper.
  destruct (Z.ltb_spec d 26);
  difs;
  do 2 f_equal; lia.
Qed.

Lemma b32Char_eq : b32Char 61 = Some (0, true).
Proof. reflexivity. Qed.

Lemma b32Char_case a b : same_letter a b -> b32Char b = b32Char a.
Proof.
  intros [->|[H ->]]; [reflexivity|]. unfold b32Char.
  replace (toUpper (a + 32)) with (toUpper a); [reflexivity|].
  unfold toUpper.
  difs.
  lia.
Qed.

(** Bit formulas of the decoder, by sweeps over the five-bit inputs. *)
Lemma sweep2 f : sweep 32 (fun a => sweep 32 (fun b => f a b)) = true ->
  forall a b, is5 a -> is5 b -> f a b = true.
Proof.
  intros H a b Ha Hb. unfold is5 in *.
  pose proof (sweep_spec 32 _ H a ltac:(lia)) as H1. cbv beta in H1.
  apply (sweep_spec 32 _ H1 b); lia.
Qed.

Lemma sweep3 f : sweep 32 (fun a => sweep 32 (fun b => sweep 32 (fun c => f a b c))) = true ->
  forall a b c, is5 a -> is5 b -> is5 c -> f a b c = true.
Proof.
  intros H a b c Ha Hb Hc. unfold is5 in *.
  pose proof (sweep_spec 32 _ H a ltac:(lia)) as H1. cbv beta in H1.
  pose proof (sweep_spec 32 _ H1 b ltac:(lia)) as H2. cbv beta in H2.
  apply (sweep_spec 32 _ H2 c); lia.
Qed.

Lemma out0 a b : is5 a -> is5 b ->
  u8 (Z.lor (Z.land (Z.shiftl a 3) 255) (Z.shiftr b 2)) = a * 8 + b / 4.
Proof. intros. apply Z.eqb_eq. revert a b H H0. apply sweep2. vm_compute. reflexivity. Qed.

Lemma out1 a b c : is5 a -> is5 b -> is5 c ->
  u8 (Z.lor (Z.lor (Z.land (Z.shiftl (Z.land a 3) 6) 255) (Z.shiftl b 1)) (Z.shiftr (Z.land c 16) 4))
  = a mod 4 * 64 + b * 2 + c / 16.
Proof. intros. apply Z.eqb_eq. revert a b c H H0 H1. apply sweep3. vm_compute. reflexivity. Qed.

Lemma out2 a b : is5 a -> is5 b ->
  u8 (Z.lor (Z.land (Z.shiftl (Z.land a 15) 4) 255) (Z.shiftr (Z.land b 30) 1)) = a mod 16 * 16 + b / 2.
Proof. intros. apply Z.eqb_eq. revert a b H H0. apply sweep2. vm_compute. reflexivity. Qed.

Lemma out3 a b c : is5 a -> is5 b -> is5 c ->
  u8 (Z.lor (Z.lor (Z.land (Z.shiftl (Z.land a 1) 7) 255) (Z.shiftl (Z.land b 31) 2)) (Z.shiftr (Z.land c 24) 3))
  = a mod 2 * 128 + b * 4 + c / 8.
Proof. intros. apply Z.eqb_eq. revert a b c H H0 H1. apply sweep3. vm_compute. reflexivity. Qed.

Lemma out4 a b : is5 a -> is5 b ->
  u8 (Z.lor (Z.land (Z.shiftl (Z.land a 7) 5) 255) b) = a mod 8 * 32 + b.
Proof. intros. apply Z.eqb_eq. revert a b H H0. apply sweep2. vm_compute. reflexivity. Qed.

Lemma digit_is5 n k : is5 (b32_digit n k).
Proof. unfold is5, b32_digit. apply Z.mod_pos_bound; lia. Qed.

(** The 8 digits of the big-endian number of 5 bytes, explicitly. *)
Section Digits.
  Variables a b c d e : Z.
  Hypothesis Ha : is_byte a.
  Hypothesis Hb : is_byte b.
  Hypothesis Hc : is_byte c.
  Hypothesis Hd : is_byte d.
  Hypothesis He : is_byte e.

  Definition grp5 : Z := unbe [a;b;c;d;e].

  Lemma grp5_eq : grp5 = a * 4294967296 + b * 16777216 + c * 65536 + d * 256 + e.
  Proof. unfold grp5, unbe; cbn [fold_left]. lia. Qed.

  Ltac dig := unfold b32_digit; rewrite grp5_eq; unfold is_byte in *;
    match goal with |- context [32 ^ ?x] => let y := eval vm_compute in (32 ^ x) in change (32 ^ x) with y end; lia.

  Lemma dig0 : b32_digit grp5 0 = a / 8. Proof using Ha Hb Hc Hd He. dig. Qed.
  Lemma dig1 : b32_digit grp5 1 = a mod 8 * 4 + b / 64. Proof using Ha Hb Hc Hd He. dig. Qed.
  Lemma dig2 : b32_digit grp5 2 = b / 2 mod 32. Proof using Ha Hb Hc Hd He. dig. Qed.
  Lemma dig3 : b32_digit grp5 3 = b mod 2 * 16 + c / 16. Proof using Ha Hb Hc Hd He. dig. Qed.
  Lemma dig4 : b32_digit grp5 4 = c mod 16 * 2 + d / 128. Proof using Ha Hb Hc Hd He. dig. Qed.
  Lemma dig5 : b32_digit grp5 5 = d / 4 mod 32. Proof using Ha Hb Hc Hd He. dig. Qed.
  Lemma dig6 : b32_digit grp5 6 = d mod 4 * 8 + e / 32. Proof using Ha Hb Hc Hd He. dig. Qed.
  Lemma dig7 : b32_digit grp5 7 = e mod 32. Proof using Ha Hb Hc Hd He. dig. Qed.

  Definition digits (n : nat) : list Z := map (b32_digit grp5) (seq 0 n).

  (** [v] agrees with the group's digits, and any digit beyond [m] may be zero or missing. *)
  Lemma out_full v :
    nth 0 v 0 = b32_digit grp5 0 -> nth 1 v 0 = b32_digit grp5 1 -> nth 2 v 0 = b32_digit grp5 2 ->
    nth 3 v 0 = b32_digit grp5 3 -> nth 4 v 0 = b32_digit grp5 4 -> nth 5 v 0 = b32_digit grp5 5 ->
    nth 6 v 0 = b32_digit grp5 6 -> nth 7 v 0 = b32_digit grp5 7 ->
    b32Out v = [a;b;c;d;e].
  Proof using Ha Hb Hc Hd He.
    intros H0 H1 H2 H3 H4 H5 H6 H7. unfold b32Out.
    rewrite H0, H1, H2, H3, H4, H5, H6, H7.
    rewrite out0, out1, out2, out3, out4 by apply digit_is5.
    rewrite dig0, dig1, dig2, dig3, dig4, dig5, dig6, dig7. unfold is_byte in *.
    repeat (f_equal; [lia|]). f_equal. lia.
  Qed.
End Digits.

Lemma b32Group_app g1 g2 : forall j pad,
  b32Group (g1 ++ g2) j pad =
  match b32Group g1 j pad with
  | None => None
  | Some (vs, p) => match b32Group g2 (j + zlen g1) p with
                    | None => None
                    | Some (vs2, p2) => Some (vs ++ vs2, p2)
                    end
  end.
Proof.
  induction g1 as [|c g1 IH]; intros j pad.
  - cbn [app b32Group]. rewrite zlen_nil, Z.add_0_r. destruct (b32Group g2 j pad) as [[? ?]|]; reflexivity.
  - cbn [app b32Group]. destruct (b32Char c) as [[v ip]|]; [|reflexivity].
    rewrite IH. rewrite zlen_cons.
    destruct (b32Group g1 (j + 1) _) as [[vs p]|]; [|reflexivity].
    replace (j + 1 + zlen g1) with (j + (1 + zlen g1)) by lia.
    destruct (b32Group g2 _ p) as [[? ?]|]; reflexivity.
Qed.

Lemma b32Group_digits ds : Forall is5 ds -> forall j pad,
  b32Group (map b32_char ds) j pad = Some (ds, pad).
Proof.
  induction 1 as [|d ds Hd H IH]; intros j pad; [reflexivity|].
  cbn [map b32Group]. rewrite b32Char_spec by assumption. cbn [andb]. rewrite IH. reflexivity.
Qed.

Lemma b32Group_pads n : forall j pad, 0 < j ->
  b32Group (repeat 61 n) j pad =
  Some (repeat 0 n, if Nat.eqb n 0 then pad else if pad =? 0 then j else pad).
Proof.
  induction n as [|n IH]; intros j pad Hj; [reflexivity|].
  cbn [repeat b32Group]. rewrite b32Char_eq. cbn [andb]. rewrite IH by lia.
  cbn [Nat.eqb]. destruct (Z.eqb_spec pad 0) as [->|Hp].
  - destruct (Nat.eqb n 0); [reflexivity|]. destruct (Z.eqb_spec j 0); [lia|reflexivity].
  - destruct (Nat.eqb n 0); [reflexivity|]. destruct (Z.eqb_spec pad 0); [lia|reflexivity].
Qed.

Lemma nth_digits_pad f m n k : (k < m)%nat -> nth k (map f (seq 0 m) ++ repeat 0 n) 0 = f k.
Proof.
  intros H. rewrite app_nth1 by (rewrite map_length, seq_length; lia).
  rewrite nth_indep with (d' := f 0%nat) by (rewrite map_length, seq_length; lia).
  rewrite map_nth, seq_nth by lia. reflexivity.
Qed.

Lemma nth_digits_zero f m n k : (m <= k)%nat -> nth k (map f (seq 0 m) ++ repeat 0 n) 0 = 0.
Proof.
  intros H. rewrite app_nth2 by (rewrite map_length, seq_length; lia).
  generalize (k - length (map f (seq 0 m)))%nat. clear.
  intros j; revert j; induction n as [|n IH]; intros [|j]; cbn [repeat nth]; auto.
Qed.

(** A group of bytes, decoded. [pads] is the number of '=' characters present. *)
Lemma out_group g m pads : (1 <= length g <= 5)%nat -> bytes_ok g -> m = b32_used (length g) ->
  firstn (length g)
    (b32Out (map (b32_digit (unbe (g ++ repeat 0 (5 - length g)))) (seq 0 m) ++ repeat 0 pads)) = g.
Proof.
  intros Hl Hg ->.
  assert (exists a b c d e, g ++ repeat 0 (5 - length g) = [a;b;c;d;e] /\
    is_byte a /\ is_byte b /\ is_byte c /\ is_byte d /\ is_byte e) as (a & b & c & d & e & E & Ha & Hb & Hc & Hd & He).
  { assert (is_byte 0) by (unfold is_byte; lia). unfold bytes_ok in Hg. rewrite Forall_forall in Hg.
    destruct g as [|a [|b [|c [|d [|e [|]]]]]]; simpl in Hl; try lia; simpl;
      do 5 eexists; (split; [reflexivity|]);
      repeat match goal with |- _ /\ _ => split end;
      first [assumption | apply Hg; simpl; tauto]. }
  rewrite E.
  replace (b32Out _) with [a;b;c;d;e].
  2:{ symmetry.
    assert (forall k, (b32_used (length g) <= k < 8)%nat -> b32_digit (unbe [a;b;c;d;e]) k = 0) as Z0.
    { intros k Hk. pose proof (dig2 a b c d e Ha Hb Hc Hd He) as D2.
      pose proof (dig3 a b c d e Ha Hb Hc Hd He) as D3.
      pose proof (dig4 a b c d e Ha Hb Hc Hd He) as D4.
      pose proof (dig5 a b c d e Ha Hb Hc Hd He) as D5.
      pose proof (dig6 a b c d e Ha Hb Hc Hd He) as D6.
      pose proof (dig7 a b c d e Ha Hb Hc Hd He) as D7.
      unfold grp5 in *.
      destruct g as [|a' [|b' [|c' [|d' [|e' [|]]]]]]; simpl in Hl; try lia; simpl in E;
        injection E as; subst; cbn [length b32_used] in Hk;
        (assert (k = 2 \/ k = 3 \/ k = 4 \/ k = 5 \/ k = 6 \/ k = 7)%nat as Ck by lia);
        repeat match type of Ck with _ \/ _ => destruct Ck as [Ck|Ck] end; subst k; try lia;
        first [rewrite D2|rewrite D3|rewrite D4|rewrite D5|rewrite D6|rewrite D7]; reflexivity. }
    apply out_full; try assumption; unfold grp5;
      match goal with |- nth ?k _ 0 = _ =>
        destruct (Nat.lt_ge_cases k (b32_used (length g)));
        [apply nth_digits_pad; assumption|rewrite nth_digits_zero by assumption; symmetry; apply Z0; lia] end. }
  rewrite <- E. rewrite firstn_app, Nat.sub_diag, firstn_all, app_nil_r. reflexivity.
Qed.

Definition Forall2_letters := Forall2 same_letter.

Lemma b32Group_case g g' : Forall2_letters g g' -> forall j pad, b32Group g' j pad = b32Group g j pad.
Proof.
  induction 1 as [|a b g g' H HF IH]; intros j pad; [reflexivity|].
  cbn [b32Group]. rewrite (b32Char_case _ _ H). destruct (b32Char a) as [[v ip]|]; [|reflexivity].
  rewrite IH. reflexivity.
Qed.

Lemma b32Loop_case fuel : forall s s', Forall2_letters s s' -> b32Loop fuel s' = b32Loop fuel s.
Proof.
  induction fuel as [|fuel IH]; intros s s' H.
  - destruct H; reflexivity.
  - pose proof (Forall2_length _ _ _ H) as L. cbn [b32Loop].
    destruct s as [|a s]; destruct s' as [|b s']; try discriminate L; [reflexivity|].
    rewrite <- L.
    assert (forall n, Forall2_letters (firstn n (a :: s)) (firstn n (b :: s'))) as F1.
    { intros n. now apply Forall2_firstn. }
    assert (forall n, Forall2_letters (skipn n (a :: s)) (skipn n (b :: s'))) as F2.
    { intros n. now apply Forall2_skipn. }
    rewrite (b32Group_case _ _ (F1 _)). destruct (b32Group _ _ _) as [[vs p]|]; [|reflexivity].
    rewrite (IH _ _ (F2 _)). reflexivity.
Qed.

Lemma base32decode_case s s' : Forall2_letters s s' -> base32decode s' = base32decode s.
Proof.
  intros H. unfold base32decode. rewrite <- (Forall2_length _ _ _ H). now rewrite (b32Loop_case _ _ _ H).
Qed.

Lemma group_len pad g : (1 <= length g <= 5)%nat ->
  length (b32_group pad g) = if pad then 8%nat else b32_used (length g).
Proof.
  intros H. unfold b32_group. rewrite app_length, map_length, seq_length.
  destruct pad; [rewrite repeat_length|simpl; lia].
  destruct (length g) as [|[|[|[|[|[|]]]]]]; simpl; lia.
Qed.

Lemma group_decoded pad g : (1 <= length g <= 5)%nat -> bytes_ok g ->
  let s := b32_group pad g in
  let pad0 := if Nat.ltb (length s) 8 then Z.of_nat (length s) else 0 in
  exists vs p, b32Group s 0 pad0 = Some (vs, p) /\
    firstn (nth (Z.to_nat p) input_output_mapping 0%nat) (b32Out vs) = g.
Proof.
  intros Hl Hg s pad0.
  assert (Hs : length s = if pad then 8%nat else b32_used (length g)) by (apply group_len; assumption).
  subst pad0. rewrite Hs. unfold s, b32_group.
  set (n := unbe (g ++ repeat 0 (5 - length g))).
  rewrite <- (map_map (b32_digit n) b32_char).
  rewrite b32Group_app.
  rewrite b32Group_digits by (apply Forall_map, Forall_forall; intros; apply digit_is5).
  unfold zlen. rewrite !map_length, seq_length.
  destruct pad.
  - change (Nat.ltb 8 8) with false. cbv iota.
    rewrite b32Group_pads by (destruct (length g) as [|[|[|[|[|[|]]]]]]; simpl; lia).
    do 2 eexists. split; [reflexivity|].
    assert ((b32_used (length g) <= 8)%nat) by (destruct (length g) as [|[|[|[|[|[|]]]]]]; simpl; lia).
    match goal with |- firstn ?k _ = _ => replace k with (length g) end.
    + apply out_group; auto.
    + destruct (length g) as [|[|[|[|[|[|]]]]]]; try lia; reflexivity.
  - cbn [b32Group]. rewrite app_nil_r.
    do 2 eexists. split; [reflexivity|].
    match goal with |- firstn ?k _ = _ => replace k with (length g) end.
    + pose proof (out_group g _ 0 Hl Hg eq_refl) as O. cbn [repeat] in O. rewrite app_nil_r in O. exact O.
    + destruct (length g) as [|[|[|[|[|[|]]]]]]; try lia; reflexivity.
Qed.

Lemma b32Loop_encode pad : forall fuel l fuel2, bytes_ok l -> (length l <= fuel)%nat ->
  (length (b32_encode pad fuel l) <= fuel2)%nat ->
  b32Loop fuel2 (b32_encode pad fuel l) = Some l.
Proof.
  induction fuel as [|fuel IH]; intros l fuel2 Hl Hf Hf2.
  - destruct l; [|simpl in Hf; lia]. destruct fuel2; reflexivity.
  - destruct l as [|x l]; [destruct fuel2; reflexivity|].
    cbn [b32_encode] in *.
    set (g := firstn 5 (x :: l)) in *. set (r := skipn 5 (x :: l)) in *.
    assert (E : x :: l = g ++ r) by (symmetry; apply firstn_skipn).
    assert (Hg5 : (1 <= length g <= 5)%nat).
    { unfold g. rewrite firstn_length. cbn [length]. lia. }
    assert (Hrl : (length r <= fuel)%nat).
    { unfold r. rewrite skipn_length. cbn [length] in *. lia. }
    rewrite E in Hl. apply bytes_ok_app in Hl as [Hg Hr].
    pose proof (group_decoded pad g Hg5 Hg) as (vs & p & G1 & G2).
    pose proof (group_len pad g Hg5) as GL.
    assert (U : (1 <= b32_used (length g) <= 8)%nat) by (destruct (length g) as [|[|[|[|[|[|]]]]]]; simpl; lia).
    assert (GP : (1 <= length (b32_group pad g) <= 8)%nat) by (rewrite GL; destruct pad; lia).
    rewrite app_length in Hf2.
    destruct fuel2 as [|fuel2]; [lia|].
    assert (Av : r = [] \/ length (b32_group pad g) = 8%nat).
    { destruct (Nat.lt_ge_cases (length g) 5) as [L|L].
      - left. unfold g in L. rewrite firstn_length in L.
        apply skipn_all2. lia.
      - right. rewrite GL. destruct pad; [reflexivity|]. replace (length g) with 5%nat by lia. reflexivity. }
    assert (Av2 : Nat.min 8 (length (b32_group pad g ++ b32_encode pad fuel r)) = length (b32_group pad g)).
    { rewrite app_length. destruct Av as [->|A8]; [|lia].
      replace (b32_encode pad fuel []) with (@nil Z) by (destruct fuel; reflexivity). simpl length. lia. }
    cbn [b32Loop]. rewrite Av2.
    destruct (b32_group pad g ++ b32_encode pad fuel r) eqn:EE.
    { exfalso. apply app_eq_nil in EE as [EE _]. rewrite EE in GP. simpl in GP. lia. }
    rewrite <- EE. rewrite firstn_app_exact, skipn_app_exact, G1.
    rewrite IH; [|assumption|assumption|lia]. rewrite G2, E. reflexivity.
Qed.

Lemma base32decode_text pad l : bytes_ok l -> base32decode (base32_text pad l) = l.
Proof.
  intros H. unfold base32decode, base32_text. rewrite b32Loop_encode; auto.
Qed.

Lemma base32decode_text_case pad l s : bytes_ok l -> Forall2_letters (base32_text pad l) s ->
  base32decode s = l.
Proof. intros H F. rewrite (base32decode_case _ _ F). now apply base32decode_text. Qed.
