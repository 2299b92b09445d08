(** C08: base32 decoding. *)
From Verif Require Import Base BaseLemmas Base32Model Base32Spec Base32Proofs.

(** RFC 4648 base32 text of any bytes, padded with '=' or not, in upper or lower case,
    decodes to those bytes. *)
Theorem C08_base32_decode_correct : forall pad l s, bytes_ok l ->
  Forall2 same_letter (base32_text pad l) s -> base32decode s = l.
Proof. exact base32decode_text_case. Qed.
Print Assumptions C08_base32_decode_correct.

Theorem C08_base32_decode_upper : forall pad l, bytes_ok l -> base32decode (base32_text pad l) = l.
Proof. exact base32decode_text. Qed.
Print Assumptions C08_base32_decode_upper.

(** RFC 4648 section 10 test vector "foobar" -> "MZXW6YTBOI======". *)
Example C08_ex1 : bytes_ok [102;111;111;98;97;114] /\
  base32_text true [102;111;111;98;97;114] = [77;90;88;87;54;89;84;66;79;73;61;61;61;61;61;61].
Proof. split; [apply bytes_okb_spec; reflexivity|vm_compute; reflexivity]. Qed.
(** A 20-byte hash has 32 characters. *)
Example C08_ex2 : length (base32_text false (repeat 171 20)) = 32%nat.
Proof. vm_compute; reflexivity. Qed.

(** Text with any other character is refused as a whole. The program also takes '1', as 'I',
    and '=' anywhere. *)
Definition b32_accepted (c : Z) : Prop := 65 <= c <= 90 \/ 97 <= c <= 122 \/ 50 <= c <= 55 \/ c = 49 \/ c = 61.

Lemma b32Char_bad c : ~ b32_accepted c -> b32Char c = None.
Proof.
  unfold b32_accepted, b32Char, toUpper. intros H.
  destruct ((97 <=? c) && (c <=? 122)) eqn:E; [exfalso; lia|].
  replace ((65 <=? c) && (c <=? 90)) with false by lia. replace ((50 <=? c) && (c <=? 55)) with false by lia.
  replace (c =? 61) with false by lia. replace (c =? 49) with false by lia. reflexivity.
Qed.

Lemma b32Group_bad c grp : ~ b32_accepted c -> In c grp -> forall j pad, b32Group grp j pad = None.
Proof.
  intros H. induction grp as [|x grp IH]; intros I j pad; [easy|]. cbn. destruct I as [->|I].
  - now rewrite b32Char_bad.
  - destruct (b32Char x) as [[v p]|]; [|reflexivity]. now rewrite IH.
Qed.

Lemma b32Loop_bad c fuel : ~ b32_accepted c -> forall s, In c s -> b32Loop fuel s = None.
Proof.
  intros H. induction fuel; intros s I; cbn; destruct s as [|x s]; try easy.
  set (s' := x :: s) in *. set (av := Nat.min 8 (length s')). rewrite <- (firstn_skipn av s') in I. apply in_app_or in I as [I|I].
  - now rewrite (b32Group_bad c).
  - destruct (b32Group _ _ _) as [[vs p]|]; [|reflexivity]. now rewrite IHfuel.
Qed.

Theorem C08_base32_rejects : forall s c, In c s -> ~ b32_accepted c -> base32decode s = [].
Proof. intros s c I H. unfold base32decode. now rewrite (b32Loop_bad c). Qed.
Print Assumptions C08_base32_rejects.
Example C08_ex3 : ~ b32_accepted 56 /\ ~ b32_accepted 48 /\ base32decode [77;89;56;61] = [].
Proof. split; [unfold b32_accepted; lia|split; [unfold b32_accepted; lia|vm_compute; reflexivity]]. Qed.
