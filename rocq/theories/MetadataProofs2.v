(** Proofs about metadata messages and about asking for parts. *)
From Coq Require Import Sorted.
From Verif Require Import Base BaseLemmas Dec DecLemmas BencodeModel BencodeSpec BencodeProofs MetadataModel MetadataSpec MetadataProofs.

(** ** Messages *)

Definition reqVal (k : Z) : bval := BDict [(kMsgType, BInt 0); (kPiece, BInt k)].
Definition resVal (k t : Z) : bval := BDict [(kMsgType, BInt 1); (kPiece, BInt k); (kTotalSize, BInt t)].

Lemma requestBody_eq k : requestBody k = bencode (reqVal k).
Proof.
  unfold requestBody, reqVal, startMap, endMap, addNumber, addRawData. cbn [bencode map concat fst snd app].
  repeat (rewrite <- app_assoc; cbn [app]). reflexivity.
Qed.

Lemma responseBody_eq k d t : responseBody k d t = bencode (resVal k t) ++ d.
Proof.
  unfold responseBody, resVal, startMap, endMap, addNumber, addRawData. cbn [bencode map concat fst snd app].
  repeat (rewrite <- app_assoc; cbn [app]). reflexivity.
Qed.

Lemma u32_i32 n : 0 <= n < 4294967296 -> u32 (i32 n) = n.
Proof. unfold u32, i32. intros H. lia. Qed.

Lemma getU32_ok fuel m objs d name n : reads m objs (BDict d) 0 -> (length d <= fuel)%nat -> lookup name KInt d = Some (BInt n) ->
  0 <= n < 4294967296 -> getU32 fuel m objs name = Val n.
Proof.
  intros R L E H. pose proof (getObject_ok m objs d 0 name KInt fuel R L) as G. rewrite E in G. destruct G as (j & G & RJ).
  unfold getU32. change TNumber with (otype_of KInt). rewrite G. cbn [obind]. cbn in RJ. destruct RJ as (_ & _ & _ & J).
  rewrite J by lia. cbn [obind]. now rewrite u32_i32.
Qed.

Lemma load_type fuel m objs d n : reads m objs (BDict d) 0 -> (length d <= fuel)%nat -> lookup kMsgType KInt d = Some (BInt n) ->
  0 <= n < 3 -> exists j, getObject fuel m objs 0 kMsgType TNumber = Val (Some j) /\ itemInt m (nth j objs noObj) = Val n.
Proof.
  intros R L E H. pose proof (getObject_ok m objs d 0 kMsgType KInt fuel R L) as G. rewrite E in G. destruct G as (j & G & RJ).
  exists j. split; [exact G|]. cbn in RJ. destruct RJ as (_ & _ & _ & J). rewrite J by lia. f_equal. unfold i32. lia.
Qed.

Lemma reads_dict_type m objs d i : reads m objs (BDict d) i -> typeEqb (otyp (nth i objs noObj)) TDict = true.
Proof. intros R. cbn in R. destruct R as (_ & -> & _). reflexivity. Qed.

Lemma decDigits_length f : forall n, (length (decDigits f n) <= f)%nat.
Proof.
  induction f; intros n; cbn; [lia|]. destruct (n <? 10); [cbn; lia|]. rewrite app_length. specialize (IHf (n / 10)). cbn. lia.
Qed.

Lemma toString_short n : 0 <= n < 4294967296 -> zlen (toString n) <= 33.
Proof.
  intros H. unfold toString, zlen. pose proof (decDigits_length (S (Z.to_nat (Z.log2 n))) n).
  assert (Z.log2 n <= 32); [|lia]. change 32 with (Z.log2 4294967296). apply Z.log2_le_mono. lia.
Qed.

Lemma reqVal_len k : 0 <= k < 4294967296 -> zlen (bencode (reqVal k)) <= 100.
Proof.
  intros H. pose proof (toString_short k H). unfold reqVal. cbn [bencode map concat fst snd].
  unfold zlen in *. rewrite !app_length. cbn [length]. change (length (toString 0)) with 1%nat. 
  change (length (toString (Z.of_nat (length kMsgType)))) with 1%nat. change (length kMsgType) with 8%nat.
  change (length (toString (Z.of_nat (length kPiece)))) with 1%nat. change (length kPiece) with 5%nat. lia.
Qed.

Lemma resVal_len k t : 0 <= k < 4294967296 -> 0 <= t < 4294967296 -> zlen (bencode (resVal k t)) <= 200.
Proof.
  intros H Ht. pose proof (toString_short k H). pose proof (toString_short t Ht). unfold resVal. cbn [bencode map concat fst snd].
  unfold zlen in *. rewrite !app_length. cbn [length]. change (length (toString 1)) with 1%nat. 
  change (length (toString (Z.of_nat (length kMsgType)))) with 1%nat. change (length kMsgType) with 8%nat.
  change (length (toString (Z.of_nat (length kPiece)))) with 1%nat. change (length kPiece) with 5%nat.
  change (length (toString (Z.of_nat (length kTotalSize)))) with 2%nat. change (length kTotalSize) with 10%nat. lia.
Qed.

Lemma load_request k c rest fuel : 0 <= k < 4294967296 -> (10 <= fuel)%nat ->
  Load fuel (requestBody k ++ c :: rest) (zlen (requestBody k)) = Val (LRequest k).
Proof.
  intros H Hf. rewrite requestBody_eq. pose proof (reqVal_len k H).
  destruct (parse_bencode (reqVal k) c rest fuel (zlen (bencode (reqVal k)))) as (r & E & R & P & PE & PR); try lia.
  - cbn. unfold bytes_ok. repeat split; try lia; repeat constructor; unfold is_byte; lia.
  - cbn. lia.
  - cbn. lia.
  - unfold Load. rewrite E. cbn [obind]. rewrite P. cbn [negb]. rewrite (reads_dict_type _ _ _ _ R). cbn [negb].
    destruct (load_type fuel _ _ _ 0 R) as (j & G & J); [cbn; lia|reflexivity|lia|]. rewrite G. cbn [obind]. rewrite J. cbn [obind Z.eqb].
    rewrite (getU32_ok fuel _ _ _ kPiece k R); [reflexivity|cbn; lia|reflexivity|lia].
Qed.

Lemma load_response k d t c rest fuel : 0 <= k < 4294967296 -> 0 < t < 4294967296 -> zlen d <= 16384 -> (14 <= fuel)%nat ->
  Load fuel (responseBody k d t ++ c :: rest) (zlen (responseBody k d t)) = Val (LData k t d).
Proof.
  intros H Ht Hd Hf. rewrite responseBody_eq. pose proof (resVal_len k t H ltac:(lia)). rewrite zlen_app, <- app_assoc.
  assert (exists c' rest', d ++ c :: rest = c' :: rest') as (c' & rest' & ED) by (destruct d; cbn; eauto). rewrite ED.
  pose proof (Zle_0_nat (length d)). unfold zlen in Hd.
  destruct (parse_bencode (resVal k t) c' rest' fuel (zlen (bencode (resVal k t)) + zlen d)) as (r & E & R & P & PE & PR); try (unfold zlen in *; lia).
  - cbn. unfold bytes_ok. repeat split; try lia; repeat constructor; unfold is_byte; lia.
  - cbn. lia.
  - cbn. lia.
  - unfold Load. rewrite E. cbn [obind]. rewrite P. cbn [negb]. rewrite (reads_dict_type _ _ _ _ R). cbn [negb].
    destruct (load_type fuel _ _ _ 1 R) as (j & G & J); [cbn; lia|reflexivity|lia|]. rewrite G. cbn [obind]. rewrite J. cbn [obind Z.eqb].
    change (1 =? 0) with false. change (1 =? 1) with true. cbn iota.
    rewrite (getU32_ok fuel _ _ _ kPiece k R); [|cbn; lia|reflexivity|lia]. cbn [obind].
    rewrite (getU32_ok fuel _ _ _ kTotalSize t R); [|cbn; lia|reflexivity|lia]. cbn [obind].
    rewrite PE, PR. unfold mPart. replace (negb (t =? 0) && (zlen (bencode (resVal k t)) + zlen d - zlen (bencode (resVal k t)) <=? 16384)) with true
      by (unfold zlen in *; lia).
    rewrite <- ED. do 2 f_equal. unfold slice, zlen. rewrite Nat2Z.id.
    replace (Z.to_nat (Z.of_nat (length (bencode (resVal k t))) + Z.of_nat (length d) - Z.of_nat (length (bencode (resVal k t))))) with (length d) by lia.
    rewrite skipn_app_len, firstn_app_len by reflexivity. reflexivity.
Qed.

(** Whatever the bytes, [Load] gives no part longer than 16 KiB and no number out of range. *)
Lemma slice_le off n (l : list Z) : zlen (slice off n l) <= Z.of_nat n.
Proof. unfold slice, zlen. rewrite firstn_length. lia. Qed.

Lemma u32_range n : 0 <= u32 n < 4294967296.
Proof. unfold u32. apply Z.mod_pos_bound. lia. Qed.

Lemma getU32_range fuel m objs name v : getU32 fuel m objs name = Val v -> 0 <= v < 4294967296.
Proof.
  unfold getU32. destruct (getObject fuel m objs 0 name TNumber) as [[j|]| |]; cbn; try discriminate.
  - destruct (itemInt m (nth j objs noObj)); cbn; try discriminate. intros [= <-]. apply u32_range.
  - intros [= <-]. lia.
Qed.

Lemma load_fits fuel m len p msg : Load fuel m len = Val msg -> event_ok (MMessage p msg).
Proof.
  unfold Load. destruct (parse fuel m len) as [r| |]; cbn [obind]; try discriminate.
  destruct (negb (pok r)); [intros [= <-]; exact I|]. destruct (negb (typeEqb _ _)); [intros [= <-]; exact I|].
  destruct (getObject fuel m (pobjs r) 0 kMsgType TNumber) as [[j|]| |]; cbn [obind]; try discriminate; [|intros [= <-]; exact I].
  destruct (itemInt m (nth j (pobjs r) noObj)) as [ty| |]; cbn [obind]; try discriminate.
  destruct (ty =? 0).
  { destruct (getU32 fuel m (pobjs r) kPiece); cbn [obind]; try discriminate. intros [= <-]. exact I. }
  destruct (ty =? 1).
  { destruct (getU32 fuel m (pobjs r) kPiece) as [k| |] eqn:K; cbn [obind]; try discriminate.
    destruct (getU32 fuel m (pobjs r) kTotalSize) as [t| |] eqn:T; cbn [obind]; try discriminate. intros [= <-].
    apply getU32_range in K, T. cbn [event_ok]. refine (conj K (conj T _)).
    destruct (negb (t =? 0) && (premaining r <=? mPart)) eqn:C; [|unfold zlen; cbn; lia].
    apply andb_prop in C as [_ C]. unfold mPart in C. pose proof (slice_le (Z.to_nat (pend r)) (Z.to_nat (premaining r)) m). lia. }
  destruct (ty =? 2); [|intros [= <-]; exact I].
  destruct (getU32 fuel m (pobjs r) kPiece); cbn [obind]; try discriminate. intros [= <-]. exact I.
Qed.

(** ** Asking *)

(** [n] questions in a row. *)
Fixpoint asks (n : nat) (r : recon) : list Z :=
  match n with O => [] | S n => let (r', i) := getMissingPieceIndex r in i :: asks n r' end.

Lemma lowerBound_exact x l : StronglySorted Z.lt l -> In x l -> lowerBound x l = Some x.
Proof.
  induction 1 as [|a l S IH F]; intros I; [easy|]. cbn. destruct (Z.leb_spec x a).
  - destruct I as [->|I]; [reflexivity|]. rewrite Forall_forall in F. specialize (F _ I). lia.
  - destruct I as [->|I]; [lia|]. now apply IH.
Qed.

Lemma getMissing_unfold r : mremain r <> [] -> getMissingPieceIndex r =
  let next := if last (mremain r) 0 <? mnext r then 0 else mnext r in
  ({| mbuf := mbuf r; mpieces := mpieces r; mnext := u32 (next + 1); mremain := mremain r |},
   match lowerBound next (mremain r) with Some i => i | None => noIndex end).
Proof. unfold getMissingPieceIndex. now destruct (mremain r). Qed.

Section Asking.
Variable r : recon.
Hypothesis S : StronglySorted Z.lt (mremain r).
Hypothesis N : mremain r <> [].
Hypothesis P : Forall (fun k => 0 <= k < 4294967295) (mremain r).

Let at_ (n : Z) : recon := {| mbuf := mbuf r; mpieces := mpieces r; mnext := n; mremain := mremain r |}.
Let top := last (mremain r) 0.

Lemma top_in : In top (mremain r).
Proof using S N. now apply last_max. Qed.
Lemma top_max y : In y (mremain r) -> y <= top.
Proof using S N. intros I. now apply last_max. Qed.
Lemma top_range : 0 <= top < 4294967295.
Proof using S N P. pose proof top_in as I. rewrite Forall_forall in P. now apply P. Qed.

Lemma ask_step n : 0 <= n -> exists i, getMissingPieceIndex (at_ n) = (at_ (if top <? n then 1 else n + 1), i) /\
  (In (if top <? n then 0 else n) (mremain r) -> i = if top <? n then 0 else n).
Proof using S N P.
  intros H. pose proof top_range. rewrite getMissing_unfold by exact N. cbn [mremain at_ mbuf mpieces mnext]. fold top. cbn zeta.
  eexists. split; [apply f_equal2; [|reflexivity]|].
  - unfold at_. f_equal. destruct (Z.ltb_spec top n); unfold u32; rewrite Z.mod_small by lia; lia.
  - intros I. rewrite (lowerBound_exact _ _ S I). reflexivity.
Qed.

(** From [n] on, up to the last one. *)
Lemma asks_up k : In k (mremain r) -> forall d n m, 0 <= n <= k -> k - n <= Z.of_nat d -> (d < m)%nat -> In k (asks m (at_ n)).
Proof using S N P.
  intros I. pose proof (top_max k I) as T. induction d; intros n m Hn Hd Hm; (destruct m; [lia|]); cbn [asks];
    destruct (ask_step n) as (i & E & F); try lia; rewrite E; replace (top <? n) with false in * by lia.
  - left. assert (n = k) by lia. subst n. now apply F.
  - destruct (Z.eq_dec n k) as [->|NE]; [left; now apply F|]. right. apply IHd; lia.
Qed.

Lemma asks_from0 k m : In k (mremain r) -> top < Z.of_nat m -> In k (asks m (at_ 0)).
Proof using S N P.
  intros I H. pose proof (top_max k I). assert (0 <= k) by (rewrite Forall_forall in P; specialize (P _ I); lia).
  apply (asks_up k I (Z.to_nat k) 0 m); lia.
Qed.

Lemma asks_wrap n m : top < n -> asks m (at_ n) = asks m (at_ 0).
Proof using S N P.
  intros H. pose proof top_range. destruct m; [reflexivity|]. cbn [asks].
  rewrite !getMissing_unfold by exact N. cbn [mremain at_ mbuf mpieces mnext]. fold top.
  replace (top <? n) with true by lia. replace (top <? 0) with false by lia. reflexivity.
Qed.

Lemma asks_all k : In k (mremain r) -> forall d n m, 0 <= n -> top + 1 - n <= Z.of_nat d -> top + 1 <= Z.of_nat m ->
  top + 1 <= Z.of_nat m - Z.max 0 (top + 1 - n) \/ n <= k -> In k (asks m (at_ n)).
Proof using S N P.
  intros I. pose proof top_range. pose proof (top_max k I). induction d; intros n m Hn Hd Hm [C|C].
  - rewrite asks_wrap by lia. apply asks_from0; [exact I|lia].
  - lia.
  - destruct (Z.ltb_spec top n).
    + rewrite asks_wrap by lia. apply asks_from0; [exact I|lia].
    + destruct m; [lia|]. cbn [asks]. destruct (ask_step n) as (i & E & _); [lia|]. rewrite E.
      replace (top <? n) with false by lia. right. apply IHd; try lia.
  - apply (asks_up k I (Z.to_nat (k - n)) n m); lia.
Qed.
End Asking.

(** The position never is negative. *)
Lemma mnext_request s p : 0 <= mnext (mrec s) -> 0 <= mnext (mrec (requestPiece s p)).
Proof.
  intros H. unfold requestPiece. destruct (mact s && negb (mfin s)); [|exact H]. unfold getMissingPieceIndex.
  destruct (mremain (mrec s)); [exact H|]. cbn. apply u32_range.
Qed.

Lemma mnext_step s e s' : 0 <= mnext (mrec s) -> mstep s e = Ok s' -> 0 <= mnext (mrec s').
Proof.
  intros H E. destruct e as [|p z en|p msg| |p|]; cbn in E.
  - injection E as <-. exact H.
  - injection E as <-. unfold onHandshake. destruct (negb (z =? 0) && en); [|exact H]. apply mnext_request. cbn.
    destruct (mpieces (mrec s) =? 0); [|exact H]. unfold minit. destruct (initLoop _ _ _ _). cbn. lia.
  - unfold onMessage in E. destruct (negb (mact s)); [congruence|]. destruct msg as [| |k|k t d|k]; try congruence.
    destruct (negb _); [congruence|]. unfold maddPiece in E. destruct (inSet k (mremain (mrec s))).
    + destruct (mcopy _ _ _); [|discriminate]. cbn [bind] in E. destruct (mfinished _); injection E as <-; [exact H|]. now apply mnext_request.
    + cbn [bind] in E. destruct (mfinished _); injection E as <-; [exact H|]. now apply mnext_request.
  - injection E as <-. destruct (mact s && negb (mfin s)); [|exact H].
    assert (G : forall l a, 0 <= mnext (mrec a) -> 0 <= mnext (mrec (fold_left requestPiece l a))).
    { induction l; intros a0 H0; [exact H0|]. cbn. now apply IHl, mnext_request. }
    now apply G.
  - injection E as <-. exact H.
  - injection E as <-. now destruct (mact s).
Qed.

Lemma mnext_run evs : forall s s', 0 <= mnext (mrec s) -> mrun s evs = Ok s' -> 0 <= mnext (mrec s').
Proof.
  induction evs as [|e evs IH]; intros s s' H E; [now injection E as <-|]. cbn in E. destruct (mstep s e) as [s1|] eqn:E1; [|discriminate].
  eapply IH; [|exact E]. now apply (mnext_step s e).
Qed.
