From Verif Require Import Base BaseLemmas HexSpec HexProofs UrlModel UrlSpec.

Lemma hexVal_digit c d : hex_digit c d -> hexVal c = Some d.
Proof.
  destruct 1; unfold hexVal;
  difs;
  f_equal; lia.
Qed.

Lemma scanHex2_digits c1 c2 d1 d2 rest : hex_digit c1 d1 -> hex_digit c2 d2 ->
  scanHex2 (c1 :: c2 :: rest) = Some (d1 * 16 + d2).
Proof.
  intros H1 H2. cbn [scanHex2].
  rewrite (hexVal_digit _ _ H1), (hexVal_digit _ _ H2).
  assert (48 <= c1) by (destruct H1; lia).
  assert (c2 <> 120 /\ c2 <> 88) by (destruct H2; lia).
  unfold isSpace.
  difs.
  reflexivity.
Qed.

Lemma urlDecode_text t l : url_text t l -> forall fuel ii, (length t <= fuel)%nat ->
  urlDecodeLoop fuel t ii = Ok l.
Proof.
  induction 1 as [|c t l Hc Hp H IH|t l H IH|c1 c2 d1 d2 t l H1 H2 H IH]; intros fuel ii Hf;
    cbn [length] in Hf.
  - destruct fuel; reflexivity.
  - destruct fuel; [lia|]. cbn [urlDecodeLoop].
    destruct (Z.eqb_spec c 37); [lia|]. cbn [negb]. rewrite IH by lia. cbn [bind].
    destruct (Z.eqb_spec c 43); [lia|reflexivity].
  - destruct fuel; [lia|]. cbn [urlDecodeLoop]. change (negb (43 =? 37)) with true.
    cbn [negb]. rewrite IH by lia. reflexivity.
  - destruct fuel; [lia|]. cbn [urlDecodeLoop]. change (negb (37 =? 37)) with false.
    cbn [firstn skipn]. rewrite (scanHex2_digits _ _ _ _ [] H1 H2).
    rewrite IH by lia. cbn [bind].
    apply hex_digit_range in H1 as [R1 _]. apply hex_digit_range in H2 as [R2 _].
    unfold u8. rewrite Z.mod_small by lia. reflexivity.
Qed.

Lemma UrlDecode_text t l : url_text t l -> UrlDecode t = Ok l.
Proof. intros H. apply urlDecode_text; auto. Qed.

Lemma urlPlain_spec c : urlPlain c = true <-> (48 <= c <= 57 \/ 65 <= c <= 90 \/ 97 <= c <= 122).
Proof. unfold urlPlain. lia. Qed.

Lemma hi_nibble : forall c, is_byte c -> Z.shiftr (Z.land c 240) 4 = c / 16.
Proof.
  intros c H. apply Z.eqb_eq. revert c H. apply byte_sweep. vm_compute. reflexivity.
Qed.

Lemma UrlEncode_text l : bytes_ok l -> url_text (UrlEncode l) l.
Proof.
  induction l as [|c l IH]; intros H; [constructor|].
  apply bytes_ok_cons in H as [Hc H]. cbn [UrlEncode].
  destruct (urlPlain c) eqn:E.
  - apply urlPlain_spec in E. constructor; [lia|lia|auto].
  - rewrite hi_nibble, land15 by assumption. unfold is_byte in Hc.
    change lookup with HexModel.hex_chars.
    replace (c :: l) with (c / 16 * 16 + c mod 16 :: l) by (f_equal; lia).
    constructor; [apply hex_chars_digit; lia|apply hex_chars_digit; lia|auto].
Qed.

Lemma UrlEncode_chars l : bytes_ok l -> Forall url_char (UrlEncode l).
Proof.
  induction l as [|c l IH]; intros H; [constructor|].
  apply bytes_ok_cons in H as [Hc H]. cbn [UrlEncode].
  destruct (urlPlain c) eqn:E.
  - apply urlPlain_spec in E. constructor; [unfold url_char; lia|auto].
  - rewrite hi_nibble, land15 by assumption. unfold is_byte in Hc.
    change lookup with HexModel.hex_chars.
    assert (forall d, 0 <= d < 16 -> url_char (nth (Z.to_nat d) HexModel.hex_chars 0)) as A.
    { intros d Hd. pose proof (hex_chars_digit d Hd) as X. unfold url_char. destruct X; lia. }
    constructor; [unfold url_char; lia|]. constructor; [apply A; lia|]. constructor; [apply A; lia|auto].
Qed.

Lemma UrlEncode_inj a b : bytes_ok a -> bytes_ok b -> UrlEncode a = UrlEncode b -> a = b.
Proof.
  intros Ha Hb H. apply UrlEncode_text, UrlDecode_text in Ha. apply UrlEncode_text, UrlDecode_text in Hb.
  congruence.
Qed.

Lemma UrlDecode_bad_first c1 c2 rest :
  scanHex2 [c1; c2] = None -> UrlDecode (37 :: c1 :: c2 :: rest) = UB.
Proof. intros H. unfold UrlDecode. cbn [length urlDecodeLoop]. change (negb (37 =? 37)) with false.
  cbn [firstn skipn]. rewrite H. reflexivity. Qed.

(** Fuel never runs out: every [UB] comes from an uninitialised read. *)
Lemma urlDecode_no_escape t : ~ In 37 t -> forall fuel ii, (length t <= fuel)%nat ->
  urlDecodeLoop fuel t ii = Ok (map (fun c => if c =? 43 then 32 else c) t).
Proof.
  induction t as [|c t IH]; intros H fuel ii Hf; cbn [length] in Hf.
  - destruct fuel; reflexivity.
  - destruct fuel; [lia|]. cbn [urlDecodeLoop].
    destruct (Z.eqb_spec c 37) as [->|]; [exfalso; apply H; now left|]. cbn [negb].
    rewrite IH; [reflexivity|intro; apply H; now right|lia].
Qed.

Lemma UrlDecode_bad_exists : exists t, bytes_ok t /\ UrlDecode t = UB.
Proof. exists [97; 37; 122; 122]. split; [apply bytes_okb_spec|]; reflexivity. Qed.
