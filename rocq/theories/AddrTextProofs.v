From Verif Require Import Base BaseLemmas Dec DecLemmas AddrModel AddrSpec AddrProofs AddrTextModel AddrTextSpec.
From Coq Require Import Lia List.
Import ListNotations.

(** Text of a byte. *)
Definition octet (v : Z) : list Z :=
  if v <? 10 then [48 + v] else if v <? 100 then [48 + v / 10; 48 + v mod 10] else [48 + v / 100; 48 + v / 10 mod 10; 48 + v mod 10].

Lemma decimal_nonneg n t : decimal n t -> 0 <= n.
Proof. induction 1; lia. Qed.

Lemma decimal_unique n t : decimal n t -> forall t', decimal n t' -> t = t'.
Proof.
  induction 1 as [d D|n d t N H I D]; intros t' H'; inversion H' as [d' D' E|n' d' t2 N' H2 D' E]; subst; try lia; try reflexivity.
  assert (n' = n /\ d' = d) as (-> & ->) by lia. f_equal. now apply I.
Qed.

Lemma octet_decimal v : is_byte v -> decimal v (octet v).
Proof.
  intros B. unfold is_byte in B. unfold octet. destruct (Z.ltb_spec v 10); [apply dec_digit; lia|].
  pose proof (Z.div_mod v 10 ltac:(lia)). pose proof (Z.mod_pos_bound v 10 ltac:(lia)). assert (v = v / 10 * 10 + v mod 10) as E by lia.
  destruct (Z.ltb_spec v 100).
  - rewrite E at 1. change [48 + v / 10; 48 + v mod 10] with ([48 + v / 10] ++ [48 + v mod 10]). apply dec_more; [lia|apply dec_digit; lia|lia].
  - rewrite E at 1. change [48 + v / 100; 48 + v / 10 mod 10; 48 + v mod 10] with ([48 + v / 100; 48 + v / 10 mod 10] ++ [48 + v mod 10]). apply dec_more; [lia| |lia].
    pose proof (Z.div_mod (v / 10) 10 ltac:(lia)). pose proof (Z.mod_pos_bound (v / 10) 10 ltac:(lia)). rewrite Z.div_div in * by lia. change (10 * 10) with 100 in *.
    assert (v / 10 = v / 100 * 10 + v / 10 mod 10) as E2 by lia. rewrite E2 at 1. change [48 + v / 100; 48 + v / 10 mod 10] with ([48 + v / 100] ++ [48 + v / 10 mod 10]).
    apply dec_more; [lia|apply dec_digit; lia|lia].
Qed.

Lemma octet_only v t : is_byte v -> decimal v t -> t = octet v.
Proof. intros B D. eapply decimal_unique; [exact D|now apply octet_decimal]. Qed.

Lemma decimal_digits n t : decimal n t -> forallb isDigit t = true /\ t <> [].
Proof.
  induction 1 as [d D|n d t N H I D]; split; try discriminate.
  - cbn. unfold isDigit. rewrite Bool.andb_true_r. apply andb_true_intro; split; apply Z.leb_le; lia.
  - rewrite forallb_app. destruct I as (-> & _). cbn. unfold isDigit. rewrite Bool.andb_true_r. apply andb_true_intro; split; apply Z.leb_le; lia.
  - destruct t; discriminate.
Qed.

Lemma digits_colon t : forallb isDigit t = true -> ~ In 58 t.
Proof. intros H I. rewrite forallb_forall in H. specialize (H _ I). discriminate H. Qed.

Lemma colons_app a b : colons (a ++ b) = (colons a + colons b)%nat.
Proof. apply count_occ_app. Qed.

Lemma colons_none t : ~ In 58 t -> colons t = O.
Proof. intros H. now apply count_occ_not_In. Qed.

Lemma quad_colons b t : quad b t -> colons t = O.
Proof.
  intros (a1 & a2 & a3 & a4 & t1 & t2 & t3 & t4 & _ & _ & _ & _ & _ & D1 & D2 & D3 & D4 & ->). rewrite !colons_app.
  rewrite !colons_none; [reflexivity|..]; try (eapply digits_colon, decimal_digits; eassumption); intros [X|[]]; discriminate X.
Qed.

Lemma portStart_none t : ~ In 58 t -> forall n, portStart t n = O.
Proof.
  intros H n. induction n as [|n I]; [reflexivity|]. cbn [portStart]. destruct (Z.eqb_spec (nth (S n) (t ++ [0]) 0) 58) as [E|_]; [|exact I]. exfalso.
  destruct (Nat.lt_ge_cases (S n) (length (t ++ [0]))) as [L|L]; [|rewrite nth_overflow in E by exact L; discriminate E].
  pose proof (nth_In (t ++ [0]) 0 L) as X. rewrite E in X. apply in_app_or in X as [X|[X|[]]]; [contradiction|discriminate X].
Qed.

Lemma portStart_last h p : h <> [] -> ~ In 58 p -> portStart (h ++ [58] ++ p) (length (h ++ [58] ++ p)) = length h.
Proof.
  intros N H. assert (G : forall k, portStart (h ++ [58] ++ p) (length h + k) = length h).
  2:{ rewrite app_length. apply G. }
  induction k as [|k I].
  - rewrite Nat.add_0_r. destruct h as [|x h]; [contradiction|]. cbn [length portStart]. replace (nth _ _ 0) with 58; [reflexivity|].
    rewrite <- app_assoc, app_nth2 by (cbn; lia). cbn [length]. rewrite Nat.sub_diag. reflexivity.
  - replace (length h + S k)%nat with (S (length h + k)) by lia. cbn [portStart]. destruct (Z.eqb_spec (nth (S (length h + k)) ((h ++ [58] ++ p) ++ [0]) 0) 58) as [E|_]; [|exact I]. exfalso.
    rewrite <- !app_assoc, app_nth2 in E by lia. replace (S (length h + k) - length h)%nat with (S k) in E by lia. cbn [app nth] in E.
    destruct (Nat.lt_ge_cases k (length (p ++ [0]))) as [L|L]; [|rewrite nth_overflow in E by exact L; discriminate E].
    pose proof (nth_In (p ++ [0]) 0 L) as X. rewrite E in X. apply in_app_or in X as [X|[X|[]]]; [contradiction|discriminate X].
Qed.

Lemma strtoull_decimal n t c rest : decimal n t -> n < 18446744073709551616 -> isDigit c = false -> exists k, strtoull (t ++ c :: rest) = Some (n, k).
Proof.
  intros D B C. destruct (decimal_digits _ _ D) as (F & N). unfold strtoull. rewrite strtoz_digits by assumption.
  assert (U : undigits 0 t = n). { clear -D. induction D as [d D|n d t N H I D]; [cbn; lia|]. rewrite undigits_app, I. cbn. lia. }
  rewrite U. pose proof (decimal_nonneg _ _ D). destruct (Z.ltb_spec 18446744073709551615 (Z.abs n)); [lia|]. unfold u64. rewrite Z.mod_small by lia. eauto.
Qed.

Lemma readDigits_none l : forall acc n, In 0 l -> readDigits l acc n <> None.
Proof. induction l as [|c l I]; intros acc n H; [destruct H|]. cbn [readDigits]. destruct (isDigit c) eqn:D; [|discriminate]. destruct H as [->|H]; [discriminate D|now apply I]. Qed.

Lemma skipSpaces_in l : forall n, In 0 l -> In 0 (fst (skipSpaces l n)).
Proof. induction l as [|c l I]; intros n H; [destruct H|]. cbn [skipSpaces]. destruct (isSpace c) eqn:D; [|exact H]. destruct H as [->|H]; [discriminate D|now apply I]. Qed.

Lemma strtoull_zero l : In 0 l -> strtoull l <> None.
Proof.
  intros H. unfold strtoull, strtoz. pose proof (skipSpaces_in l 0%nat H) as G. destruct (skipSpaces l 0) as [l1 n1]. cbn [fst] in G. destruct l1 as [|c l2]; [destruct G|].
  assert (K : forall l3 (neg : bool) n2, In 0 l3 -> match match readDigits l3 0 0 with None => None | Some (_, O) => Some (0, O) | Some (v, n) => Some (if neg then - v else v, (n2 + n)%nat) end with
    None => None | Some (v, n) => Some (if 18446744073709551615 <? Z.abs v then 18446744073709551615 else u64 v, n) end <> None).
  { intros l3 neg n2 X. pose proof (readDigits_none l3 0 0 X). destruct (readDigits l3 0 0) as [[v [|n]]|]; [discriminate..|contradiction]. }
  destruct (Z.eqb_spec c 45); [refine (K l2 true _ _)|destruct (Z.eqb_spec c 43); [refine (K l2 false _ _)|refine (K (c :: l2) false _ G)]]; (destruct G as [E|G]; [lia|exact G]).
Qed.

Lemma portStart_le t n : (portStart t n <= n)%nat.
Proof. induction n as [|n I]; [reflexivity|]. cbn [portStart]. destruct (_ =? 58); lia. Qed.

(** ** A reader of dotted quads, to show that there are readers *)

Definition octetOf (t : list Z) : option Z := find (fun v => if list_eq_dec Z.eq_dec t (octet v) then true else false) (map Z.of_nat (seq 0 256)).

Fixpoint splitDots (t : list Z) : list (list Z) :=
  match t with
  | [] => [[]]
  | c :: t' => if c =? 46 then [] :: splitDots t' else match splitDots t' with x :: r => (c :: x) :: r | [] => [[c]] end
  end.

Definition readQuad (t : list Z) : option (bool * list Z) :=
  match splitDots t with
  | [w; x; y; z] =>
    match octetOf w, octetOf x, octetOf y, octetOf z with
    | Some a, Some b, Some c, Some d => Some (false, [a; b; c; d])
    | _, _, _, _ => None
    end
  | _ => None
  end.

Fixpoint joinDots (l : list (list Z)) : list Z := match l with [] => [] | [x] => x | x :: r => x ++ [46] ++ joinDots r end.

Lemma splitDots_join t : splitDots t <> [] /\ joinDots (splitDots t) = t.
Proof.
  induction t as [|c t (N & J)]; [split; [discriminate|reflexivity]|]. cbn [splitDots]. destruct (Z.eqb_spec c 46) as [->|_].
  - split; [discriminate|]. cbn [joinDots]. destruct (splitDots t); [contradiction|]. rewrite J. reflexivity.
  - destruct (splitDots t) as [|x [|y r]]; [contradiction|..]; (split; [discriminate|]); cbn [joinDots app] in *; now rewrite J.
Qed.

Lemma splitDots_app x t : ~ In 46 x -> splitDots (x ++ 46 :: t) = x :: splitDots t.
Proof.
  induction x as [|c x I]; intros H; [reflexivity|]. cbn [app splitDots]. rewrite I by (intros X; apply H; now right). destruct (Z.eqb_spec c 46) as [->|_]; [destruct H; now left|reflexivity].
Qed.

Lemma splitDots_one x : ~ In 46 x -> splitDots x = [x].
Proof.
  induction x as [|c x I]; intros H; [reflexivity|]. cbn [splitDots]. rewrite I by (intros X; apply H; now right). destruct (Z.eqb_spec c 46) as [->|_]; [destruct H; now left|reflexivity].
Qed.

Lemma octet_inj v w : is_byte v -> is_byte w -> octet v = octet w -> v = w.
Proof. intros V W E. eapply decimal_inj; [now apply octet_decimal|]. rewrite E. now apply octet_decimal. Qed.

Lemma octetOf_some t v : octetOf t = Some v <-> is_byte v /\ t = octet v.
Proof.
  unfold octetOf. split.
  - intros H. apply find_some in H as (I & H). destruct (list_eq_dec Z.eq_dec t (octet v)); [|discriminate H]. apply in_map_iff in I as (k & <- & I). apply in_seq in I. split; [unfold is_byte; lia|assumption].
  - intros (B & ->). destruct (find _ _) as [w|] eqn:E.
    + apply find_some in E as (I & H). destruct (list_eq_dec Z.eq_dec (octet v) (octet w)) as [E|]; [|discriminate H]. apply in_map_iff in I as (k & <- & I). apply in_seq in I.
      apply octet_inj in E; [now subst|assumption|unfold is_byte; lia].
    + exfalso. apply find_none with (x := v) in E. { destruct (list_eq_dec Z.eq_dec (octet v) (octet v)); [discriminate E|contradiction]. }
      unfold is_byte in B. apply in_map_iff. exists (Z.to_nat v). split; [lia|]. apply in_seq. lia.
Qed.

Lemma octet_dot v : is_byte v -> ~ In 46 (octet v).
Proof. intros B I. destruct (decimal_digits _ _ (octet_decimal v B)) as (F & _). rewrite forallb_forall in F. specialize (F _ I). discriminate F. Qed.

Lemma readQuad_reader : reader readQuad.
Proof.
  split; [|split].
  - intros b t (a1 & a2 & a3 & a4 & t1 & t2 & t3 & t4 & -> & B1 & B2 & B3 & B4 & D1 & D2 & D3 & D4 & ->).
    apply octet_only in D1, D2, D3, D4; try assumption. subst. unfold readQuad. cbn [app]. rewrite !splitDots_app, splitDots_one by now apply octet_dot.
    assert (O : forall v, is_byte v -> octetOf (octet v) = Some v) by (intros; now apply octetOf_some). now rewrite !O.
  - intros t b. unfold readQuad. destruct (splitDots_join t) as (_ & J). destruct (splitDots t) as [|w [|x [|y [|z [|? ?]]]]]; try discriminate.
    destruct (octetOf w) eqn:E1; [|discriminate]. destruct (octetOf x) eqn:E2; [|discriminate]. destruct (octetOf y) eqn:E3; [|discriminate]. destruct (octetOf z) eqn:E4; [|discriminate].
    intros H. injection H as <-. apply octetOf_some in E1 as (B1 & ->), E2 as (B2 & ->), E3 as (B3 & ->), E4 as (B4 & ->).
    exists z0, z1, z2, z3. eexists _, _, _, _. repeat split; try assumption; try (now apply octet_decimal); try (apply B1 || apply B2 || apply B3 || apply B4). now rewrite <- J.
  - intros t b. unfold readQuad. destruct (splitDots t) as [|w [|x [|y [|z [|? ?]]]]]; try discriminate.
    destruct (octetOf w), (octetOf x), (octetOf y), (octetOf z); discriminate.
Qed.
