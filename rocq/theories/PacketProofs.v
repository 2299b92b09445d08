From Verif Require Import Base BaseLemmas PacketModel PacketSpec.

Lemma le_be n v : rev (le n v) = be n v.
Proof.
  revert v; induction n as [|n IH]; intros v; [reflexivity|]. cbn [le rev be]. now rewrite IH.
Qed.

Lemma rev_bytes l : bytes_ok l -> bytes_ok (rev l).
Proof. unfold bytes_ok; intros H; apply Forall_rev, H. Qed.

Lemma le_bswap n v : le n (bswap n v) = be n v.
Proof.
  unfold bswap. rewrite <- le_be.
  rewrite <- (le_length n v) at 1. rewrite <- rev_length.
  apply le_unle, rev_bytes, le_bytes.
Qed.

Lemma unle_rev_be l : unle (rev l) = unbe l.
Proof.
  induction l as [|b l IH] using rev_ind; [reflexivity|].
  rewrite rev_app_distr. cbn [rev app unle]. rewrite IH, unbe_app, unbe_one.
  change (zlen [b]) with 1. change (256 ^ 1) with 256. lia.
Qed.

Lemma bswap_unle n l : length l = n -> bytes_ok l -> bswap n (unle l) = unbe l.
Proof.
  intros <- H. unfold bswap. rewrite le_unle by assumption. apply unle_rev_be.
Qed.

Lemma addN_be n d v : addN n d v = d ++ be n v.
Proof. unfold addN. now rewrite le_bswap. Qed.

Lemma addField_wire d f : field_ok f -> addField d f = d ++ wire f.
Proof.
  destruct f; intros H; cbn [addField wire field_ok] in *.
  - unfold add8. rewrite u8_id by (unfold is_byte; lia). reflexivity.
  - unfold add16. rewrite addN_be. cbn [be app]. f_equal. leq.
  - unfold add32. rewrite addN_be. cbn [be app]. f_equal. leq.
  - unfold add64. now rewrite addN_be.
  - reflexivity.
Qed.

Lemma build_wire fs : Forall field_ok fs -> forall d, fold_left addField fs d = d ++ concat (map wire fs).
Proof.
  induction 1 as [|f fs Hf H IH]; intros d; cbn [fold_left map concat].
  - now rewrite app_nil_r.
  - rewrite addField_wire, IH, app_assoc by assumption. reflexivity.
Qed.

Lemma build_eq fs : Forall field_ok fs -> build fs = concat (map wire fs).
Proof. intros H. unfold build. now rewrite build_wire. Qed.

Lemma readAt_at pre w rest n : length w = n ->
  readAt {| rbuf := pre ++ w ++ rest; rpos := length pre |} n = Ok w.
Proof.
  intros <-. unfold readAt, slice. cbn [rbuf rpos]. rewrite !app_length.
  replace (Nat.leb _ _) with true by (symmetry; apply Nat.leb_le; lia).
  now rewrite skipn_app_exact, firstn_app_exact.
Qed.

Lemma popN_at n pre v rest : 0 <= v < 256 ^ Z.of_nat n ->
  popN n {| rbuf := pre ++ be n v ++ rest; rpos := length pre |}
  = Ok (v, {| rbuf := pre ++ be n v ++ rest; rpos := length pre + n |}).
Proof.
  intros H. unfold popN. rewrite readAt_at by apply be_length. cbn [bind].
  rewrite bswap_unle; [|apply be_length|apply be_bytes].
  rewrite unbe_be by assumption. reflexivity.
Qed.

Lemma wire_be (f : field) : field_ok f ->
  match f with F16 v => wire f = be 2 v | F32 v => wire f = be 4 v | _ => True end.
Proof.
  destruct f; cbn [field_ok wire be app]; intros H; auto.
  - leq.
  - leq.
Qed.

Lemma popField_at f pre rest : field_ok f ->
  popField f {| rbuf := pre ++ wire f ++ rest; rpos := length pre |}
  = Ok (f, {| rbuf := pre ++ wire f ++ rest; rpos := length pre + length (wire f) |}).
Proof.
  intros H. pose proof (wire_be f H) as W. destruct f; cbn [popField field_ok] in *.
  - unfold pop8. cbn [wire]. rewrite readAt_at by reflexivity. reflexivity.
  - unfold pop16. rewrite W, popN_at by (change (256 ^ Z.of_nat 2) with 65536; lia).
    cbn [bind fst snd]. now rewrite be_length.
  - unfold pop32. rewrite W, popN_at by (change (256 ^ Z.of_nat 4) with 4294967296; lia).
    cbn [bind fst snd]. now rewrite be_length.
  - unfold pop64. cbn [wire]. rewrite popN_at by (change (256 ^ Z.of_nat 8) with 18446744073709551616; lia).
    cbn [bind fst snd]. now rewrite be_length.
  - unfold popBuffer. cbn [wire]. rewrite readAt_at by reflexivity. reflexivity.
Qed.

Lemma readAll_at fs : Forall field_ok fs -> forall pre rest,
  readAll fs {| rbuf := pre ++ concat (map wire fs) ++ rest; rpos := length pre |}
  = Ok (fs, {| rbuf := pre ++ concat (map wire fs) ++ rest;
               rpos := length pre + length (concat (map wire fs)) |}).
Proof.
  induction 1 as [|f fs Hf H IH]; intros pre rest; cbn [readAll map concat].
  - cbn [length]. rewrite Nat.add_0_r. reflexivity.
  - rewrite <- app_assoc. rewrite popField_at by assumption. cbn [bind fst snd].
    replace (pre ++ wire f ++ concat (map wire fs) ++ rest)
      with ((pre ++ wire f) ++ concat (map wire fs) ++ rest) by now rewrite <- app_assoc.
    rewrite <- app_length. rewrite IH. cbn [bind fst snd].
    rewrite !app_length. do 3 f_equal. lia.
Qed.

Lemma packet_round_trip fs rest : Forall field_ok fs ->
  readAll fs (newReader (build fs ++ rest))
  = Ok (fs, {| rbuf := build fs ++ rest; rpos := length (build fs) |}).
Proof.
  intros H. rewrite build_eq by assumption.
  apply (readAll_at fs H [] rest).
Qed.

Lemma packet_remaining fs rest : Forall field_ok fs -> zlen rest < 18446744073709551616 ->
  remaining {| rbuf := build fs ++ rest; rpos := length (build fs) |} = zlen rest.
Proof.
  intros H L. unfold remaining, u64. cbn [rbuf rpos]. rewrite zlen_app. unfold zlen at 1.
  pose proof (zlen_nonneg rest). rewrite Z.mod_small; lia.
Qed.

Lemma read_past_end f b p : Forall (fun _ => True) b ->
  (p + length (wire f) > length b)%nat -> (forall r, f <> FRaw r) ->
  popField f {| rbuf := b; rpos := p |} = UB.
Proof.
  intros _ H Hn. destruct f; cbn [popField wire] in *;
    try (exfalso; eapply Hn; reflexivity);
    unfold pop8, pop16, pop32, pop64, popN, readAt; cbn [rbuf rpos];
    rewrite ?be_length in H; cbn [length] in H;
    (replace (Nat.leb _ _) with false by (symmetry; apply Nat.leb_gt; lia)); reflexivity.
Qed.
