(** Specification of percent-encoded text (RFC 3986 escapes, '+' for a space). *)
From Verif Require Import Base HexSpec.

(** [url_text t l]: text [t] denotes the bytes [l]. *)
Inductive url_text : list Z -> list Z -> Prop :=
| ut_nil : url_text [] []
| ut_plain c t l : c <> 37 -> c <> 43 -> url_text t l -> url_text (c :: t) (c :: l)
| ut_plus t l : url_text t l -> url_text (43 :: t) (32 :: l)
| ut_escape c1 c2 d1 d2 t l :
    hex_digit c1 d1 -> hex_digit c2 d2 -> url_text t l ->
    url_text (37 :: c1 :: c2 :: t) (d1 * 16 + d2 :: l).

(** A character that may appear in encoded text: letter, digit or '%'. *)
Definition url_char (c : Z) : Prop :=
  48 <= c <= 57 \/ 65 <= c <= 90 \/ 97 <= c <= 122 \/ c = 37.
