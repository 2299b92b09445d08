(** Network byte order: the bytes a field occupies on the wire. *)
From Verif Require Import Base PacketModel.

Definition wire (f : field) : list Z :=
  match f with
  | F8 v => [v]
  | F16 v => [v / 256; v mod 256]
  | F32 v => [v / 16777216; v / 65536 mod 256; v / 256 mod 256; v mod 256]
  | F64 v => be 8 v
  | FRaw b => b
  end.

(** The value fits its field. *)
Definition field_ok (f : field) : Prop :=
  match f with
  | F8 v => 0 <= v < 256
  | F16 v => 0 <= v < 65536
  | F32 v => 0 <= v < 4294967296
  | F64 v => 0 <= v < 18446744073709551616
  | FRaw b => True
  end.
