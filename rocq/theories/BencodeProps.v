(** C01 and C02: bencode. *)
From Verif Require Import Base BaseLemmas Dec DecLemmas BencodeModel BencodeSpec BencodeProofs BencodeSafe.

(** The writer's calls produce the encoding of the value, after what was written before. *)
Theorem C01_writer : forall v data, write v data = data ++ bencode v.
Proof. exact write_encode. Qed.
Print Assumptions C01_writer.

(** The value is read back, nothing is left over and nothing of the following bytes is used,
    whatever they are. Missing: documents with 65536 objects or more or of 2 GiB or more, and
    buffers which end right behind the document (see [C01_exact_buffer_refuted]). *)
Theorem C01_round_trip_partial : forall v c rest fuel len, bval_ok v -> Z.of_nat (nodes v) < 65536 ->
  zlen (bencode v) <= len -> len < 2147483648 -> (2 * nodes v <= fuel)%nat ->
  exists r, parse fuel (write v [] ++ c :: rest) len = Val r /\
    reads (write v [] ++ c :: rest) (pobjs r) v 0 /\ pok r = true /\
    pend r = zlen (bencode v) /\ premaining r = len - zlen (bencode v).
Proof. intros v c rest fuel len. rewrite (write_encode v []). exact (parse_bencode v c rest fuel len). Qed.
Print Assumptions C01_round_trip_partial.

Example C01_meets :
  let v := BDict [([97], BList [BInt 0; BStr [101;58]; BDict []]); ([98;99], BStr [])] in
  bval_ok v /\ Z.of_nat (nodes v) < 65536 /\ zlen (bencode v) <= 100 /\ (2 * nodes v <= 100)%nat.
Proof. vm_compute. repeat split; auto; repeat constructor; intros; discriminate. Qed.

(** Looking up a name in a parsed dictionary gives the first entry of that name and kind. *)
Theorem C01_lookup : forall m objs d i name t fuel, reads m objs (BDict d) i -> (length d <= fuel)%nat ->
  match lookup name t d with
  | Some v => exists j, getObject fuel m objs i name (otype_of t) = Val (Some j) /\ reads m objs v j
  | None => getObject fuel m objs i name (otype_of t) = Val None
  end.
Proof. exact getObject_ok. Qed.
Print Assumptions C01_lookup.

Example C01_lookup_meets :
  let v := BDict [([97], BInt 7)] in
  match parse 20 (bencode v ++ [0]) (zlen (bencode v)) with
  | Val r => reads (bencode v ++ [0]) (pobjs r) v 0
  | _ => False
  end.
Proof. vm_compute. repeat split; auto. Qed.

(** Finding: every list and dictionary which fills its buffer makes the parser read the byte
    behind it. *)
Theorem C01_exact_buffer_refuted : forall v fuel, bval_ok v -> (exists l, v = BList l) \/ (exists d, v = BDict d) ->
  Z.of_nat (nodes v) < 65536 -> zlen (bencode v) < 2147483648 -> (2 * nodes v <= fuel)%nat ->
  parse fuel (write v []) (zlen (write v [])) = Undef.
Proof. intros v fuel. rewrite (write_encode v []). exact (parse_exact_buffer v fuel). Qed.
Print Assumptions C01_exact_buffer_refuted.

Example C01_exact_buffer_meets : let v := BDict [([97], BInt 7)] in bval_ok v /\ (2 * nodes v <= 6)%nat.
Proof. vm_compute. repeat split; auto; repeat constructor; intros; discriminate. Qed.

(** Bytes of any kind, with zero bytes behind them: the parser ends after a number of steps
    linear in the input, and each text it reports lies in the buffer, but for one byte. Missing:
    inputs where a negative number or one of 2^31 or more can be read at some position, inputs
    of 64 KiB or more, and buffers without readable bytes behind (see the three findings). *)
Theorem C02_safe_partial : forall data fuel, tame data -> zlen data < 65536 -> (2 * length data + 2 <= fuel)%nat ->
  exists r, parse fuel (data ++ repeat 0 (length data + 2)) (zlen data) = Val r /\
    Forall (fun o => otyp o = TText -> 0 <= odata o /\ 0 <= osize o /\ odata o + osize o <= zlen data + 1) (pobjs r) /\
    0 <= pend r <= 2 * zlen data + 1.
Proof. exact (fun data fuel H1 H2 H3 => parse_safe data H1 H2 fuel H3). Qed.
Print Assumptions C02_safe_partial.

(** "d3:abcl4:x", cut short in a text of a list. *)
Example C02_safe_meets : tame [100;51;58;97;98;99;108;52;58;120].
Proof.
  intros i v n Hi E. do 10 (destruct i as [|i]; [vm_compute in E; injection E as <- <-; lia|]). simpl in Hi. lia.
Qed.

(** Finding: "d-4:" keeps the parser busy for ever, whatever follows in memory. *)
Theorem C02_negative_length_refuted : forall rest fuel, parse fuel (100 :: 45 :: 52 :: 58 :: rest) 4 = NoEnd.
Proof. exact negative_key_diverges. Qed.
Print Assumptions C02_negative_length_refuted.

(** Finding: a text whose given length is one too large is accepted and read with the byte
    behind the buffer. *)
Theorem C02_long_text_refuted : forall s x rest fuel, zlen s < 2147483640 - zlen (toString (zlen s + 1)) ->
  let data := toString (zlen s + 1) ++ [58] ++ s in
  exists r, parse (S fuel) (data ++ x :: rest) (zlen data) = Val r /\ pok r = true /\
    exists o, pobjs r = [o] /\ otyp o = TText /\ itemText (data ++ x :: rest) o = Val (s ++ [x]).
Proof. exact long_text. Qed.
Print Assumptions C02_long_text_refuted.

Example C02_long_text_meets : zlen [97;98] < 2147483640 - zlen (toString (zlen [97;98] + 1)).
Proof. vm_compute. reflexivity. Qed.
