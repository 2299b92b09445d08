(** HTTP responses (RFC 7230) and compact peer lists (BEP 23), independent of the code. *)
From Verif Require Import Base.

Definition crlf : list Z := [13; 10].

(** Text without CR and LF. *)
Definition plain (l : list Z) : Prop := Forall (fun c => c <> 13 /\ c <> 10) l.

(** A header field "name: value". *)
Definition field_ok (f : list Z * list Z) : Prop := plain (fst f) /\ plain (snd f) /\ Forall (fun c => c <> 58) (fst f).
Definition field_text (f : list Z * list Z) : list Z := fst f ++ [58; 32] ++ snd f.

(** A status line "HTTP...". *)
Definition status_ok (s : list Z) : Prop :=
  plain s /\ Forall (fun c => c <> 58) s /\ (firstn 4 s = [72;84;84;80] \/ firstn 4 s = [104;116;116;112]).

(** Status line, fields and the empty line. *)
Definition header_text (status : list Z) (fs : list (list Z * list Z)) : list Z :=
  status ++ crlf ++ concat (map (fun f => field_text f ++ crlf) fs) ++ crlf.

(** Names are compared without regard to case. *)
Definition upper (c : Z) : Z := if (97 <=? c) && (c <=? 122) then c - 32 else c.
Definition named (name : list Z) (f : list Z * list Z) : Prop := map upper (fst f) = name.

Definition contentLength : list Z := (* CONTENT-LENGTH *) [67;79;78;84;69;78;84;45;76;69;78;71;84;72].
Definition transferEncoding : list Z := (* TRANSFER-ENCODING *) [84;82;65;78;83;70;69;82;45;69;78;67;79;68;73;78;71].
Definition chunked : list Z := (* CHUNKED *) [67;72;85;78;75;69;68].

(** A hexadecimal number. *)
Definition is_hex (c : Z) : Prop := 48 <= c <= 57 \/ 65 <= c <= 70 \/ 97 <= c <= 102.
Definition hex_digit_value (c : Z) : Z := if c <=? 57 then c - 48 else if c <=? 70 then c - 55 else c - 87.
Definition hex_value (h : list Z) : Z := fold_left (fun a c => a * 16 + hex_digit_value c) h 0.

(** One chunk of a chunked body: its length in hexadecimal, and its bytes. *)
Definition chunk_text (h d : list Z) : list Z := h ++ crlf ++ d ++ crlf.
Definition last_chunk : list Z := [48] ++ crlf ++ crlf.

(** A peer: four address bytes and a port, six bytes in a list. *)
Definition peer_ok (p : list Z * Z) : Prop := length (fst p) = 4%nat /\ bytes_ok (fst p) /\ 0 <= snd p < 65536.
Definition peers_text (ps : list (list Z * Z)) : list Z := concat (map (fun p => fst p ++ be 2 (snd p)) ps).
