(** C06: hexadecimal text. *)
From Verif Require Import Base BaseLemmas HexModel HexSpec HexProofs.

(** What is encoded is proper hexadecimal text of exactly those bytes... *)
Theorem C06_hex_encode_correct : forall l, bytes_ok l -> hex_text (hexToString l) l.
Proof. exact hexToString_text. Qed.
Print Assumptions C06_hex_encode_correct.

(** ... proper hexadecimal text in either case is decoded to its bytes ... *)
Theorem C06_hex_decode_correct : forall t l, hex_text t l -> decodeHexa t (length l) = Ok (Some l).
Proof. exact decodeHexa_exact. Qed.
Print Assumptions C06_hex_decode_correct.

(** ... so decoding inverts encoding. *)
Theorem C06_hex_round_trip : forall l, bytes_ok l ->
  decodeHexa (hexToString l) (length l) = Ok (Some l).
Proof. exact decodeHexa_hexToString. Qed.
Print Assumptions C06_hex_round_trip.

(** Decoding fails exactly when some character is not a hexadecimal digit. *)
Theorem C06_hex_reject : forall t n,
  decodeHexa t n = Ok None <-> exists c, In c t /\ ~ exists d, hex_digit c d.
Proof. exact decodeHexa_reject_iff. Qed.
Print Assumptions C06_hex_reject.

(** Reading stays inside the text when it is at least 2n-1 characters long... *)
Theorem C06_hex_in_bounds : forall t n, (n * 2 <= length t + 1)%nat -> decodeHexa t n <> UB.
Proof. exact decodeHexa_safe. Qed.
Print Assumptions C06_hex_in_bounds.

(** ... and every shorter text of hexadecimal digits makes it read outside it
    (the text overload of [Core::removeTorrent], Core.cpp:305, passes user text unchecked). *)
Theorem C06_hex_short_text_refuted : forall t n, (n * 2 > length t + 1)%nat ->
  (forall c, In c t -> exists d, hex_digit c d) -> decodeHexa t n = UB.
Proof. exact decodeHexa_ub. Qed.
Print Assumptions C06_hex_short_text_refuted.

Example C06_ex1 : bytes_ok [0; 255; 18; 171] /\ hexToString [0; 255; 18; 171] = [48;48;70;70;49;50;65;66].
Proof. split; [apply bytes_okb_spec; reflexivity|vm_compute; reflexivity]. Qed.
Example C06_ex2 : decodeHexa [97;66] 1 = Ok (Some [171]) /\ decodeHexa [97;103] 1 = Ok None.
Proof. split; vm_compute; reflexivity. Qed.
Example C06_ex3 : decodeHexa [97;66] 20 = UB.
Proof. vm_compute; reflexivity. Qed.
