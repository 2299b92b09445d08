(** C07: percent encoding. *)
From Verif Require Import Base BaseLemmas HexSpec UrlModel UrlSpec UrlProofs.

Theorem C07_url_encode_correct : forall l, bytes_ok l ->
  url_text (UrlEncode l) l /\ Forall url_char (UrlEncode l).
Proof. exact (fun l H => conj (UrlEncode_text l H) (UrlEncode_chars l H)). Qed.
Print Assumptions C07_url_encode_correct.

(** Well-formed percent-encoded text, with escapes in either case and '+' for a space,
    decodes to the bytes it denotes. *)
Theorem C07_url_decode_correct : forall t l, url_text t l -> UrlDecode t = Ok l.
Proof. exact UrlDecode_text. Qed.
Print Assumptions C07_url_decode_correct.

Theorem C07_url_round_trip : forall l, bytes_ok l -> UrlDecode (UrlEncode l) = Ok l.
Proof. exact (fun l H => UrlDecode_text _ _ (UrlEncode_text l H)). Qed.
Print Assumptions C07_url_round_trip.

(** Finding: text whose first escape is not two hexadecimal digits (here: any pair scanf
    converts nothing from) makes the decoder use an uninitialised variable. *)
Theorem C07_url_bad_escape_refuted :
  (forall c1 c2 rest, scanHex2 [c1; c2] = None -> UrlDecode (37 :: c1 :: c2 :: rest) = UB)
  /\ exists t, bytes_ok t /\ UrlDecode t = UB.
Proof. exact (conj UrlDecode_bad_first UrlDecode_bad_exists). Qed.
Print Assumptions C07_url_bad_escape_refuted.

Example C07_ex1 : UrlEncode [65; 32; 255; 45] = [65; 37;50;48; 37;70;70; 37;50;68].
Proof. vm_compute; reflexivity. Qed.
Example C07_ex2 : url_text [97; 43; 37; 51; 97] [97; 32; 58].
Proof.
  apply ut_plain; [lia|lia|]. apply ut_plus. change 58 with (3 * 16 + 10).
  apply ut_escape; [exact (hd_num 3 ltac:(lia))|exact (hd_lower 10 ltac:(lia))|constructor].
Qed.

(** An escape gives a byte only if its first character is a hexadecimal digit (white space and a
    sign, which scanf also takes, aside): the byte both digits denote, or the first one alone if
    the second is none. *)
Theorem C07_escape_digits : forall a b v, isSpace a = false -> a <> 43 -> a <> 45 -> scanHex2 [a; b] = Some v ->
  exists x, hex_digit a x /\ ((exists y, hex_digit b y /\ v = x * 16 + y) \/ (forall y, ~ hex_digit b y) /\ v = x).
Proof.
  intros a b v S P M. cbn [scanHex2]. rewrite S. destruct (Z.eqb_spec a 43); [contradiction|]. destruct (Z.eqb_spec a 45); [contradiction|].
  assert (H : forall c d, hexVal c = Some d -> hex_digit c d).
  { intros c d. unfold hexVal. destruct (Z.leb_spec 48 c), (Z.leb_spec c 57), (Z.leb_spec 65 c), (Z.leb_spec c 70), (Z.leb_spec 97 c), (Z.leb_spec c 102); cbn [andb]; intros E; try discriminate E; injection E as <-; try lia.
    all: first [ replace c with (48 + (c - 48)) at 1 by lia; apply hd_num; lia
               | replace c with (65 + (c - 55 - 10)) at 1 by lia; apply hd_upper; lia
               | replace c with (97 + (c - 87 - 10)) at 1 by lia; apply hd_lower; lia ]. }
  assert (N : forall c, hexVal c = None -> forall y, ~ hex_digit c y).
  { intros c E y D. unfold hexVal in E. inversion D; subst;
    match type of E with context [if ?x then _ else _] => idtac end;
    repeat match type of E with context [?p <=? ?q] => destruct (Z.leb_spec p q); cbn [andb] in E end; try discriminate E; lia. }
  destruct ((a =? 48) && ((b =? 120) || (b =? 88))); [discriminate|].
  destruct (hexVal a) as [x|] eqn:A; [|discriminate]. intros E. exists x. split; [auto|]. destruct (hexVal b) as [y|] eqn:B; injection E as <-; [left; eauto|right; eauto].
Qed.
Print Assumptions C07_escape_digits.
