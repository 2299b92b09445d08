(** C49: binary packets. *)
From Verif Require Import Base BaseLemmas PacketModel PacketSpec PacketProofs.

(** The builder writes each field in network byte order, one after the other. *)
Theorem C49_packet_wire : forall fs, Forall field_ok fs -> build fs = concat (map wire fs).
Proof. exact build_eq. Qed.
Print Assumptions C49_packet_wire.

(** Reading back any sequence of fields, with anything following them, gives the same
    fields and leaves the reader just behind them. *)
Theorem C49_packet_round_trip : forall fs rest, Forall field_ok fs ->
  readAll fs (newReader (build fs ++ rest))
  = Ok (fs, {| rbuf := build fs ++ rest; rpos := length (build fs) |}).
Proof. exact packet_round_trip. Qed.
Print Assumptions C49_packet_round_trip.

Theorem C49_packet_remaining : forall fs rest, Forall field_ok fs ->
  zlen rest < 18446744073709551616 ->
  remaining {| rbuf := build fs ++ rest; rpos := length (build fs) |} = zlen rest.
Proof. exact packet_remaining. Qed.
Print Assumptions C49_packet_remaining.

Example C49_ex1 : Forall field_ok [F8 7; F16 258; F32 4294967295; FRaw [1;2;3]; F64 1] /\
  build [F8 7; F16 258; F32 4294967295; FRaw [1;2;3]; F64 1]
  = [7; 1;2; 255;255;255;255; 1;2;3; 0;0;0;0;0;0;0;1].
Proof. split; [repeat constructor; simpl; lia|vm_compute; reflexivity]. Qed.
(** Reading behind the end is undefined: callers must check the size first. *)
Example C49_ex2 : pop32 (newReader [1;2;3]) = UB.
Proof. vm_compute; reflexivity. Qed.
