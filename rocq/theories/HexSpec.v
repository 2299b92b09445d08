(** Specification of hexadecimal text, independent of the code. *)
From Verif Require Import Base.

(** The value of a hexadecimal digit: its position in "0123456789ABCDEF" or in
    "0123456789abcdef". *)
Inductive hex_digit : Z -> Z -> Prop :=
| hd_num d : 0 <= d <= 9 -> hex_digit (48 + d) d      (* '0'..'9' *)
| hd_upper d : 10 <= d <= 15 -> hex_digit (65 + (d - 10)) d   (* 'A'..'F' *)
| hd_lower d : 10 <= d <= 15 -> hex_digit (97 + (d - 10)) d.  (* 'a'..'f' *)

(** [hex_text t l]: text [t] is the bytes [l] in hexadecimal, two digits each,
    most significant first. *)
Inductive hex_text : list Z -> list Z -> Prop :=
| ht_nil : hex_text [] []
| ht_cons c1 c2 d1 d2 t l :
    hex_digit c1 d1 -> hex_digit c2 d2 -> hex_text t l ->
    hex_text (c1 :: c2 :: t) (d1 * 16 + d2 :: l).
