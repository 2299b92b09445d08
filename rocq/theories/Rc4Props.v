(** C11: the RC4 stream cipher. *)
From Verif Require Import Base BaseLemmas Rc4Model Rc4Spec Rc4Proofs.

(** The bytes produced are RC4: data xor the published keystream of the key, after the
    skipped prefix. *)
Theorem C11_rc4_is_rc4 : forall key skip data st,
  (1 <= length key <= 256)%nat -> rc4_init key = Ok st ->
  snd (rc4_encode (rc4_skip st skip) data)
  = xor_list data (skipn skip (keystream key (skip + length data))).
Proof. exact rc4_stream. Qed.
Print Assumptions C11_rc4_is_rc4.

(** The cipher is created for every non-empty key; only the first 256 bytes matter. *)
Theorem C11_rc4_init_defined : forall key, (1 <= length key <= 256)%nat ->
  exists st, rc4_init key = Ok st /\ xs st = 0 /\ ys st = 0 /\ rep (buf st) (ksa key).
Proof. exact rc4_init_rep. Qed.
Print Assumptions C11_rc4_init_defined.

Theorem C11_rc4_long_key : forall key, rc4_init key = rc4_init (firstn 256 key).
Proof. exact rc4_long_key. Qed.
Print Assumptions C11_rc4_long_key.

(** Decrypting with an equal state inverts encrypting and leaves both sides in the same
    state, ready for the next data. *)
Theorem C11_rc4_inverse : forall st out st' r,
  rc4_encode st out = (st', r) -> rc4_decode st r = (st', out).
Proof. exact rc4_invol. Qed.
Print Assumptions C11_rc4_inverse.

(** Splitting the data differently changes nothing. *)
Theorem C11_rc4_chunks : forall a b st,
  rc4_decode st (a ++ b) =
  let (st1, ra) := rc4_decode st a in
  let (st2, rb) := rc4_decode st1 b in (st2, ra ++ rb).
Proof. exact rc4_decode_app. Qed.
Print Assumptions C11_rc4_chunks.

(** Skipping is decoding without looking. *)
Theorem C11_rc4_skip : forall st d, rc4_skip st (length d) = fst (rc4_decode st d).
Proof. exact rc4_skip_decode. Qed.
Print Assumptions C11_rc4_skip.

(** Published test vector: key "Key", plaintext "Plaintext". *)
Example C11_ex1 : match rc4_init [75;101;121] with
  | Ok st => snd (rc4_encode st [80;108;97;105;110;116;101;120;116])
  | UB => [] end = [187;243;22;232;217;64;175;10;211].
Proof. vm_compute; reflexivity. Qed.
Example C11_ex2 : rc4_init [] = UB.
Proof. reflexivity. Qed.
