(** Proofs about the table of countries. *)
From Verif Require Import Base BaseLemmas CountryModel CountrySpec.
From Coq Require Import Sorted.

(* --- the file --- *)

Lemma readNames_line c : forall cs cur l, ~ In 10 c -> readNames cs cur (c ++ l) = readNames cs (cur ++ c) l.
Proof.
  induction c as [|x c IH]; intros cs cur l N; [now rewrite app_nil_r|].
  cbn [app readNames]. destruct (Z.eqb_spec x 10) as [->|_]; [exfalso; apply N; now left|]. rewrite IH by (intros H; apply N; now right). rewrite <- app_assoc. reflexivity.
Qed.

Lemma readNames_all ns : forall cs l, Forall name_ok ns -> readNames cs [] (flat_map (fun c => c ++ [10]) ns ++ [10] ++ l) = (cs ++ ns, Some l).
Proof.
  induction ns as [|c ns IH]; intros cs l F; [cbn; now rewrite app_nil_r|]. inversion F as [|? ? [C1 C2] F']; subst.
  cbn [flat_map]. rewrite <- !app_assoc. rewrite readNames_line by assumption. cbn [app readNames]. change (10 =? 10) with true. cbv iota.
  destruct c as [|x c]; [congruence|]. cbn [app] in *. specialize (IH (cs ++ [x :: c]) l F'). cbn [app] in IH. etransitivity; [exact IH|]. rewrite <- app_assoc. reflexivity.
Qed.

Lemma readEntries_one ip c l k bs : readEntries k bs ((le 4 ip ++ le 2 c) ++ l) = bind (addEntry (unle (le 4 ip)) (unle (le 2 c)) k bs) (fun r => readEntries (fst r) (snd r) l).
Proof. reflexivity. Qed.

Lemma upd_mid {A} (d : list A) x y r : upd (length d) y (d ++ x :: r) = d ++ y :: r.
Proof. induction d; cbn; congruence. Qed.

Lemma nth_mid {A} (d : list A) x r z : nth (length d) (d ++ x :: r) z = x.
Proof. induction d; cbn; congruence. Qed.

Lemma readEntries_ranges b : forall d cur r l, Forall (fun e => 0 <= fst e < 4294967296 /\ 0 <= snd e < 65536 /\ snd e <> 17733) b ->
  readEntries (length d) (d ++ cur :: r) (flat_map (fun e => le 4 (fst e) ++ le 2 (snd e)) b ++ l) = readEntries (length d) (d ++ (cur ++ b) :: r) l.
Proof.
  induction b as [|[ip c] b IH]; intros d cur r l F; [cbn; now rewrite app_nil_r|]. inversion F as [|? ? (A & B & C) F']; subst. cbn [fst snd] in A, B, C.
  cbn [flat_map fst snd]. rewrite <- (app_assoc (le 4 ip ++ le 2 c)), readEntries_one, !unle_le by (change (256 ^ Z.of_nat 4) with 4294967296; change (256 ^ Z.of_nat 2) with 65536; lia).
  unfold addEntry. destruct (Z.eqb_spec c 17733); [contradiction|].
  assert (L : (length d <? length (d ++ cur :: r))%nat = true) by (apply Nat.ltb_lt; rewrite app_length; cbn; lia). rewrite L. cbn [bind fst snd].
  rewrite nth_mid, upd_mid, IH by assumption. rewrite <- app_assoc. reflexivity.
Qed.

Lemma readEntries_end d r l : readEntries (length d) (d ++ r) ([69; 69; 69; 69; 69; 69] ++ l) = readEntries (S (length d)) (d ++ r) l.
Proof. reflexivity. Qed.

Lemma readEntries_all bs : forall d, Forall (Forall (fun e => 0 <= fst e < 4294967296 /\ 0 <= snd e < 65536 /\ snd e <> 17733)) bs ->
  readEntries (length d) (d ++ repeat [] (length bs)) (flat_map bucketBytes bs) = Ok (d ++ bs).
Proof.
  induction bs as [|b bs IH]; intros d F; [reflexivity|]. inversion F as [|? ? A F']; subst.
  cbn [flat_map length repeat]. unfold bucketBytes at 1. rewrite <- app_assoc, readEntries_ranges by assumption. rewrite readEntries_end.
  cbn [app]. specialize (IH (d ++ [b]) F'). rewrite app_length in IH. cbn [length] in IH. rewrite Nat.add_1_r, <- !app_assoc in IH. exact IH.
Qed.

Lemma roundtrip t : table_ok t -> fromFile (Some (toFile t)) = Ok t.
Proof.
  intros (A & B & C). unfold fromFile, toFile. rewrite readNames_all by assumption. cbn [app].
  pose proof (readEntries_all (buckets t) [] C) as H. rewrite B in H. cbn [length app] in H. unfold newTable. cbn [buckets]. rewrite H. cbn [bind]. destruct t; reflexivity.
Qed.

(* --- the search --- *)

Lemma lowerBound_spec l1 l2 a : Forall (fun e => fst e <= a) l1 -> Forall (fun e : Z * Z => a < fst e) l2 -> forall fuel first len,
  (first <= length l1 <= first + len)%nat -> (first + len <= length (l1 ++ l2))%nat -> (len <= fuel)%nat -> lowerBound fuel (l1 ++ l2) a first len = length l1.
Proof.
  intros F1 F2. induction fuel as [|fuel IH]; intros first len A B C; cbn [lowerBound]; [lia|].
  destruct len as [|n]; [lia|]. set (h := Nat.div2 (S n)). assert (H : (h < S n)%nat) by (apply Nat.lt_div2; lia). cbv zeta. clearbody h.
  destruct (Nat.lt_ge_cases (first + h) (length l1)) as [L|L].
  - rewrite app_nth1 by assumption. pose proof (proj1 (Forall_nth _ l1) F1 (first + h)%nat (0, 0) L) as P. cbn beta in P. apply Z.leb_le in P. rewrite P. apply IH; lia.
  - rewrite app_nth2 by assumption. rewrite app_length in B. pose proof (proj1 (Forall_nth _ l2) F2 (first + h - length l1)%nat (0, 0) ltac:(lia)) as P. cbn beta in P.
    destruct (Z.leb_spec (fst (nth (first + h - length l1) l2 (0, 0))) a); [lia|]. apply IH; [lia|rewrite app_length; lia|lia].
Qed.

Lemma getFrom_nothing t a k l1 l2 : nth k (buckets t) [] = l1 ++ l2 -> Forall (fun e => fst e <= a) l1 -> Forall (fun e => a < fst e) l2 -> l1 = [] \/ l2 = [] -> getFrom t a k = Ok [].
Proof.
  intros E F1 F2 H. unfold getFrom; cbv zeta. rewrite E, lowerBound_spec; [|assumption|assumption|rewrite !app_length; lia|lia|lia].
  destruct H as [->| ->]; [cbn [length Nat.eqb]; now rewrite orb_true_r|]. rewrite app_nil_r, Nat.eqb_refl. reflexivity.
Qed.

Lemma getFrom_found t a k l1 e l2 : nth k (buckets t) [] = (l1 ++ [e]) ++ l2 -> Forall (fun e => fst e <= a) (l1 ++ [e]) -> Forall (fun e => a < fst e) l2 -> l2 <> [] ->
  getFrom t a k = match nth_error (countries t) (Z.to_nat (snd e)) with Some c => Ok c | None => UB end.
Proof.
  intros E F1 F2 H. unfold getFrom; cbv zeta. rewrite E, lowerBound_spec; [|assumption|assumption|rewrite !app_length; lia|lia|lia].
  assert (L : (0 < length l2)%nat) by (destruct l2; [congruence|cbn; lia]).
  replace (length (l1 ++ [e]) =? length ((l1 ++ [e]) ++ l2))%nat with false by (symmetry; apply Nat.eqb_neq; rewrite !app_length; lia).
  replace (length (l1 ++ [e]) =? 0)%nat with false by (symmetry; apply Nat.eqb_neq; rewrite !app_length; cbn; lia). cbn [orb].
  replace (length (l1 ++ [e]) - 1)%nat with (length l1) by (rewrite app_length; cbn; lia). rewrite <- app_assoc. cbn [app]. rewrite nth_mid. reflexivity.
Qed.

(* --- the names --- *)

Fixpoint numbered (k : Z) (ns : list name) : cmap := match ns with [] => [] | c :: ns' => (c, k) :: numbered (k + 1) ns' end.

Lemma numbered_app ns : forall k x, numbered k (ns ++ x) = numbered k ns ++ numbered (k + zlen ns) x.
Proof.
  induction ns as [|c ns IH]; intros k x; cbn [app numbered]; [now rewrite zlen_nil, Z.add_0_r|]. rewrite IH, zlen_cons. f_equal. f_equal. f_equal. lia.
Qed.

Lemma numbered_length ns : forall k, length (numbered k ns) = length ns.
Proof. induction ns; intros; cbn; auto. Qed.

Lemma idOf_some ns c : forall k i, idOf (numbered k ns) c = Some i -> k <= i < k + zlen ns /\ nth_error ns (Z.to_nat (i - k)) = Some c.
Proof.
  induction ns as [|x ns IH]; intros k i; cbn [numbered idOf]; [discriminate|]. rewrite zlen_cons. pose proof (zlen_nonneg ns). destruct (list_eqb x c) eqn:E.
  - intros [= <-]. apply list_eqb_spec in E. subst. rewrite Z.sub_diag. cbn. split; [lia|reflexivity].
  - intros H1. destruct (IH _ _ H1) as [A B]. split; [lia|]. replace (Z.to_nat (i - k)) with (S (Z.to_nat (i - (k + 1)))) by lia. exact B.
Qed.

Lemma idOf_none ns c : forall k, idOf (numbered k ns) c = None -> ~ In c ns.
Proof.
  induction ns as [|x ns IH]; intros k; cbn [numbered idOf]; [auto|]. destruct (list_eqb x c) eqn:E; [discriminate|]. intros H [->|I]; [rewrite list_eqb_refl in E; discriminate|]. exact (IH _ H I).
Qed.

Lemma setId_same m : forall c i, idOf m c = Some i -> setId m c i = m.
Proof.
  induction m as [|[x j] m IH]; intros c i; cbn [idOf setId]; [reflexivity|]. destruct (list_eqb x c); [congruence|]. intros H. now rewrite IH.
Qed.

Lemma setId_new ns c i j : forall k, ~ In c ns -> setId (numbered k ns ++ [(c, j)]) c i = numbered k ns ++ [(c, i)].
Proof.
  induction ns as [|x ns IH]; intros k N; cbn [numbered app setId]; [now rewrite list_eqb_refl|].
  destruct (list_eqb x c) eqn:E; [apply list_eqb_spec in E; subst; exfalso; apply N; now left|]. rewrite IH; [reflexivity|]. intros H. apply N. now right.
Qed.

(** The ranges that begin with another name than the one before. *)
Fixpoint collapse (last : option name) (rows : list (Z * name)) : list (Z * name) :=
  match rows with
  | [] => []
  | r :: rows' => if match last with Some c => list_eqb c (snd r) | None => false end then collapse last rows' else r :: collapse (Some (snd r)) rows'
  end.

Definition entry (ns : list name) (e : Z * Z) (r : Z * name) : Prop := fst e = fst r /\ 0 <= snd e < zlen ns /\ nth_error ns (Z.to_nat (snd e)) = Some (snd r).

Lemma entry_app ns x e r : entry ns e r -> entry (ns ++ x) e r.
Proof.
  intros (A & B & C). split; [assumption|]. rewrite zlen_app. pose proof (zlen_nonneg x). split; [lia|]. rewrite nth_error_app1; [assumption|]. apply nth_error_Some. congruence.
Qed.

Definition last_ok (ns : list name) (last : Z) (lastName : option name) : Prop :=
  match lastName with None => last = 0 | Some c => 0 < last /\ nth_error ns (Z.to_nat (last - 1)) = Some c end.

Lemma last_ok_app ns x last ln : last_ok ns last ln -> last_ok (ns ++ x) last ln.
Proof. destruct ln; cbn; [|auto]. intros [A B]. split; [assumption|]. rewrite nth_error_app1; [assumption|]. apply nth_error_Some. congruence. Qed.

Lemma incl_len (ns U : list name) : NoDup ns -> incl ns U -> zlen ns <= zlen U.
Proof. intros A B. pose proof (NoDup_incl_length A B). unfold zlen. lia. Qed.

Lemma NoDup_snoc (ns : list name) c : NoDup ns -> ~ In c ns -> NoDup (ns ++ [c]).
Proof. intros A B. apply NoDup_Add with (a := c) (l := ns); [|auto]. rewrite <- (app_nil_r ns) at 1. apply Add_app. Qed.

Lemma parseBucket_spec U rows : zlen U <= 17733 -> forall ns last ln, NoDup ns -> incl ns U -> (forall r, In r rows -> In (snd r) U) -> last_ok ns last ln ->
  exists x out, parseBucket (numbered 1 ns) last rows = (numbered 1 (ns ++ x), out) /\ NoDup (ns ++ x) /\ incl (ns ++ x) U /\ Forall2 (entry (ns ++ x)) out (collapse ln rows).
Proof.
  intros LU. induction rows as [|[s c] rows IH]; intros ns last ln ND IN RU LO; cbn [parseBucket collapse].
  { exists [], []. rewrite app_nil_r. auto. }
  assert (RU' : forall r, In r rows -> In (snd r) U) by (intros; apply RU; now right). cbn [snd].
  destruct (idOf (numbered 1 ns) c) as [i|] eqn:E.
  - destruct (idOf_some _ _ _ _ E) as [B1 B2]. pose proof (incl_len _ _ ND IN) as LN. destruct (Z.eqb_spec i 0) as [->|I0]; [lia|]. cbn [negb andb].
    destruct (Z.eqb_spec i last) as [->|IL].
    + destruct ln as [c0|]; cbn in LO; [|lia]. destruct LO as [L0 LO]. assert (c0 = c) as -> by congruence. rewrite list_eqb_refl. apply IH; auto. split; assumption.
    + assert (NE : match ln with Some c0 => list_eqb c0 c | None => false end = false).
      { destruct ln as [c0|]; [|reflexivity]. destruct (list_eqb c0 c) eqn:Q; [|reflexivity]. apply list_eqb_spec in Q. subst c0. cbn in LO. destruct LO as [L0 L1]. exfalso. apply IL.
        assert (Z.to_nat (i - 1) = Z.to_nat (last - 1)); [|lia]. apply (proj1 (NoDup_nth_error ns) ND); [|congruence]. apply nth_error_Some. congruence. }
      rewrite NE, setId_same by assumption. destruct (IH ns i (Some c) ND IN RU') as (x & out & P1 & P2 & P3 & P4); [cbn; split; [lia|assumption]|].
      rewrite P1. exists x. eexists. split; [reflexivity|]. split; [assumption|]. split; [assumption|]. constructor; [|assumption].
      apply entry_app. unfold entry. cbn [fst snd]. replace (u16 (i - 1)) with (i - 1) by (symmetry; apply Z.mod_small; lia). split; [reflexivity|]. split; [lia|assumption].
  - pose proof (idOf_none _ _ _ E) as NI. change (0 =? 0) with true. cbn [negb andb]. cbv iota.
    assert (ND' : NoDup (ns ++ [c])) by (apply NoDup_snoc; assumption).
    assert (IN' : incl (ns ++ [c]) U) by (apply incl_app; [assumption|]; intros y [<-|[]]; apply (RU (s, c)); now left).
    pose proof (incl_len _ _ ND' IN') as LN. rewrite zlen_app, zlen_cons, zlen_nil in LN. pose proof (zlen_nonneg ns) as P0.
    assert (NE : match ln with Some c0 => list_eqb c0 c | None => false end = false).
    { destruct ln as [c0|]; [|reflexivity]. destruct (list_eqb c0 c) eqn:Q; [|reflexivity]. apply list_eqb_spec in Q. subst c0. cbn in LO. destruct LO as [_ LO]. apply nth_error_In in LO. contradiction. }
    rewrite NE. assert (Z1 : u16 (zlen (numbered 1 ns ++ [(c, 0)])) = zlen ns + 1).
    { rewrite zlen_app. unfold zlen at 1. rewrite numbered_length. fold (zlen ns). rewrite zlen_cons, zlen_nil. unfold u16. rewrite Z.mod_small by lia. lia. }
    rewrite Z1, setId_new by assumption.
    assert (NB : numbered 1 ns ++ [(c, zlen ns + 1)] = numbered 1 (ns ++ [c])) by (rewrite numbered_app; cbn [numbered]; do 3 f_equal; lia). rewrite NB.
    assert (NT : nth_error (ns ++ [c]) (Z.to_nat (zlen ns)) = Some c) by (unfold zlen; rewrite Nat2Z.id, nth_error_app2, Nat.sub_diag by lia; reflexivity).
    destruct (IH (ns ++ [c]) (zlen ns + 1) (Some c) ND' IN' RU') as (x & out & P1 & P2 & P3 & P4).
    { cbn. split; [lia|]. rewrite Z.add_simpl_r. exact NT. }
    rewrite P1. exists (c :: x). eexists. rewrite <- app_assoc in *. cbn [app] in *. split; [reflexivity|]. split; [assumption|]. split; [assumption|]. constructor; [|assumption].
    change (c :: x) with ([c] ++ x). rewrite app_assoc. apply entry_app. unfold entry. cbn [fst snd]. rewrite Z.add_simpl_r. replace (u16 (zlen ns)) with (zlen ns) by (symmetry; apply Z.mod_small; lia).
    split; [reflexivity|]. split; [|exact NT]. unfold zlen. rewrite app_length. cbn [length]. lia.
Qed.

Lemma parseBuckets_spec U bs : zlen U <= 17733 -> forall ns, NoDup ns -> incl ns U -> (forall b r, In b bs -> In r b -> In (snd r) U) ->
  exists x outs, parseBuckets (numbered 1 ns) bs = (numbered 1 (ns ++ x), outs) /\ NoDup (ns ++ x) /\ incl (ns ++ x) U /\ Forall2 (fun out b => Forall2 (entry (ns ++ x)) out (collapse None b)) outs bs.
Proof.
  intros LU. induction bs as [|b bs IH]; intros ns ND IN RU; cbn [parseBuckets].
  { exists [], []. rewrite app_nil_r. auto. }
  destruct (parseBucket_spec U b LU ns 0 None ND IN) as (x & out & P1 & P2 & P3 & P4); [intros; apply (RU b); [now left|assumption]|reflexivity|].
  rewrite P1. destruct (IH (ns ++ x) P2 P3) as (y & outs & Q1 & Q2 & Q3 & Q4); [intros; apply (RU b0); [now right|assumption]|].
  rewrite Q1. exists (x ++ y), (out :: outs). rewrite app_assoc. split; [reflexivity|]. split; [assumption|]. split; [assumption|]. constructor; [|assumption].
  clear -P4. induction P4; constructor; [now apply entry_app|assumption].
Qed.

Lemma placeNames_spec rest : forall d, placeNames (numbered (1 + zlen d) rest) (d ++ repeat [] (length rest)) = Ok (d ++ rest).
Proof.
  induction rest as [|c rest IH]; intros d; [reflexivity|]. cbn [numbered placeNames length repeat]. pose proof (zlen_nonneg d).
  match goal with |- context [if ?b then _ else _] => assert (B : b = true) end.
  { apply andb_true_intro. rewrite zlen_app, zlen_cons. split; apply Z.leb_le; [lia|]. match goal with |- context [zlen (repeat ?x ?y)] => pose proof (zlen_nonneg (repeat x y)) end. lia. }
  rewrite B. replace (Z.to_nat (1 + zlen d - 1)) with (length d) by (unfold zlen; lia). rewrite upd_mid.
  specialize (IH (d ++ [c])). rewrite zlen_app, zlen_cons, zlen_nil, <- !app_assoc in IH. cbn [app] in IH. replace (1 + zlen d + 1) with (1 + (zlen d + (1 + 0))) by lia. exact IH.
Qed.

Lemma rowBuckets_in rows b r : In b (rowBuckets rows) -> In r b -> In r rows.
Proof. unfold rowBuckets. intros H I. apply in_map_iff in H. destruct H as (k & <- & _). apply filter_In in I. tauto. Qed.

Lemma collapse_in rows : forall ln r, In r (collapse ln rows) -> In r rows.
Proof. induction rows as [|x rows IH]; intros ln r; cbn [collapse]; [auto|]. destruct (match ln with Some c => list_eqb c (snd x) | None => false end); intros H; [right; eauto|]. destruct H as [->|H]; [now left|right; eauto]. Qed.

Lemma Forall2_in_l {A B} (R : A -> B -> Prop) l l' a : Forall2 R l l' -> In a l -> exists b, In b l' /\ R a b.
Proof. induction 1; cbn; [tauto|]. intros [->|H1]; [eauto|]. destruct (IHForall2 H1) as (b & ? & ?). eauto. Qed.

Lemma setId_in m : forall c i x j, In (x, j) (setId m c i) -> exists j', In (x, j') m.
Proof.
  induction m as [|[y k] m IHm]; intros c i x j; cbn [setId]; [intros []|]. destruct (list_eqb y c).
  - intros [[= <- <-]|H]; [exists k; now left|exists j; now right].
  - intros [[= <- <-]|H]; [exists k; now left|]. destruct (IHm _ _ _ _ H) as (j' & ?). exists j'. now right.
Qed.

Lemma parseBucket_in (P : name -> Prop) b : (forall r, In r b -> P (snd r)) -> forall m last out m', parseBucket m last b = (m', out) ->
  (forall c i, In (c, i) m -> P c) -> forall c i, In (c, i) m' -> P c.
Proof.
  induction b as [|[s c0] b IHb]; intros IB m last out m'; cbn [parseBucket]; [intros [= <- <-]; auto|].
  intros E PM. assert (IB' : forall r, In r b -> P (snd r)) by (intros z Hz; apply IB; now right).
  assert (M1 : forall c i, In (c, i) (match idOf m c0 with None => m ++ [(c0, 0)] | Some _ => m end) -> P c).
  { intros c i. destruct (idOf m c0); [apply PM|]. intros H. apply in_app_or in H. destruct H as [H|[[= <- <-]|[]]]; [eapply PM; eassumption|]. apply (IB (s, c0)). now left. }
  revert E. set (m1 := match idOf m c0 with None => m ++ [(c0, 0)] | Some _ => m end) in *. set (id0 := match idOf m c0 with None => 0 | Some i => i end). change (forall c i, In (c, i) m1 -> P c) in M1. clearbody m1 id0.
  destruct (negb (id0 =? 0) && (id0 =? last)).
  - intros E. eapply IHb; [assumption|exact E|exact M1].
  - destruct (parseBucket (setId m1 c0 (if id0 =? 0 then u16 (zlen m1) else id0)) (if id0 =? 0 then u16 (zlen m1) else id0) b) as [m2 o2] eqn:E. intros [= <- <-].
    eapply IHb; [assumption|exact E|]. intros c i H. destruct (setId_in _ _ _ _ _ H) as [j' Q']. eapply M1; eassumption.
Qed.

Lemma parseBuckets_in (P : name -> Prop) bs : (forall b r, In b bs -> In r b -> P (snd r)) -> forall m outs m', parseBuckets m bs = (m', outs) ->
  (forall c i, In (c, i) m -> P c) -> forall c i, In (c, i) m' -> P c.
Proof.
  induction bs as [|b bs IHbs]; intros IB m outs' m'; cbn [parseBuckets]; [intros [= <- <-]; auto|].
  destruct (parseBucket m 0 b) as [m1 o1] eqn:E1. destruct (parseBuckets m1 bs) as [m2 o2] eqn:E2. intros [= <- <-] PM.
  eapply IHbs; [intros z r Hz; apply (IB z); now right|exact E2|]. eapply parseBucket_in; [|exact E1|exact PM]. intros r. apply IB. now left.
Qed.

Lemma numbered_in ns c : In c ns -> forall k, exists i, In (c, i) (numbered k ns).
Proof.
  induction ns as [|y ns IHn]; intros []; intros k; cbn [numbered]; [subst; eexists; left; reflexivity|]. destruct (IHn H (k + 1)) as [i ?]. exists i. now right.
Qed.

Lemma buckets_spec U bs : zlen U <= 17733 -> (forall b r, In b bs -> In r b -> In (snd r) U /\ name_ok (snd r) /\ 0 <= fst r < 4294967296) ->
  exists ns outs, (let (m, o) := parseBuckets [] bs in bind (placeNames m (repeat [] (length m))) (fun cs => Ok {| countries := cs; buckets := o |})) = Ok {| countries := ns; buckets := outs |} /\
    Forall name_ok ns /\ Forall (Forall (fun e => 0 <= fst e < 4294967296 /\ 0 <= snd e < 65536 /\ snd e <> 17733)) outs /\
    Forall2 (fun out b => Forall2 (entry ns) out (collapse None b)) outs bs.
Proof.
  intros LU R. destruct (parseBuckets_spec U bs LU []) as (ns & outs & P1 & P2 & P3 & P4); [constructor|intros ? []| |].
  { intros b r H1 H2. now destruct (R b r H1 H2). }
  change ([] ++ ns) with ns in *. change (numbered 1 []) with (@nil (name * Z)) in P1. exists ns, outs. rewrite P1, numbered_length.
  pose proof (placeNames_spec ns []) as PN. change (1 + zlen []) with 1 in PN. cbn [app] in PN. rewrite PN. cbn [bind]. pose proof (incl_len _ _ P2 P3) as LN.
  split; [reflexivity|]. split; [|split; [|exact P4]].
  - apply Forall_forall. intros c HC. destruct (numbered_in ns c HC 1) as [i NI]. eapply (parseBuckets_in name_ok bs); [|exact P1|intros ? ? []|exact NI]. intros b r H1 H2. now destruct (R b r H1 H2).
  - apply Forall_forall. intros out HO. destruct (Forall2_in_l _ _ _ _ P4 HO) as (b & B1 & B2). apply Forall_forall. intros e HE. destruct (Forall2_in_l _ _ _ _ B2 HE) as (r & R1 & (R2 & R3 & R4)).
    apply collapse_in in R1. destruct (R b r B1 R1) as (_ & _ & R6). rewrite R2. split; [assumption|]. lia.
Qed.

Lemma Forall2_at {A B} (R : A -> B -> Prop) l l' : Forall2 R l l' -> forall k d d', (k < length l')%nat -> R (nth k l d) (nth k l' d').
Proof. induction 1; intros k d d' K; [cbn in K; lia|]. destruct k; cbn [nth]; [assumption|]. apply IHForall2. cbn in K. lia. Qed.

Lemma bucket_nth ns (f : nat -> list (Z * name)) sq outs : Forall2 (fun out b => Forall2 (entry ns) out (collapse None b)) outs (map f sq) ->
  forall k, (k < length sq)%nat -> Forall2 (entry ns) (nth k outs []) (collapse None (f (nth k sq 0%nat))).
Proof.
  intros F k K. rewrite <- (map_length f) in K. pose proof (Forall2_at _ _ _ F k [] (f 0%nat) K) as H. cbn beta in H. rewrite map_nth in H. exact H.
Qed.

Lemma fromParser_spec rows : list_ok rows -> exists t, fromParser rows = Ok t /\ table_ok t /\
  forall k, (k < 256)%nat -> Forall2 (entry (countries t)) (nth k (buckets t) []) (collapse None (filter (fun r => (indexOf (fst r) =? k)%nat) rows)).
Proof.
  intros (S & R & U & ND & LU & IU).
  destruct (buckets_spec U (rowBuckets rows) LU) as (ns & outs & P1 & P2 & P3 & P4).
  { intros b r H1 H2. pose proof (rowBuckets_in _ _ _ H1 H2) as I. split; [auto|]. apply and_comm. exact (proj1 (Forall_forall _ _) R r I). }
  exists {| countries := ns; buckets := outs |}. split; [exact P1|]. clear P1. unfold rowBuckets in P4. revert P4.
  pose proof (seq_length 256 0) as SL. assert (SN : forall k, (k < 256)%nat -> nth k (seq 0 256) 0%nat = k) by (intros; rewrite seq_nth by assumption; apply Nat.add_0_l). revert SL SN. generalize (seq 0 256). intros sq SL SN P4. split.
  - split; [assumption|]. split; [|assumption]. cbn [buckets]. apply Forall2_length in P4. rewrite map_length in P4. congruence.
  - intros k K. cbn [countries buckets]. rewrite <- SL in K. pose proof (bucket_nth ns _ sq outs P4 k K) as Q. cbn beta in Q. rewrite SN in Q by congruence. exact Q.
Qed.

(* --- the lookup --- *)

Definition lastName (d : option name) (rows : list (Z * name)) : option name := fold_left (fun _ r => Some (snd r)) rows d.

Lemma collapse_app a : forall ln b, collapse ln (a ++ b) = collapse ln a ++ collapse (lastName ln a) b.
Proof.
  induction a as [|r a IH]; intros ln b; [reflexivity|]. cbn [app collapse]. unfold lastName. cbn [fold_left]. fold (lastName (Some (snd r)) a).
  destruct ln as [c|]; [destruct (list_eqb c (snd r)) eqn:E|]; cbn [app]; rewrite IH; [|reflexivity|reflexivity]. apply list_eqb_spec in E. subst c. reflexivity.
Qed.

Lemma collapse_last a : forall ln s c, exists x s', collapse ln (a ++ [(s, c)]) = x ++ [(s', c)] \/ (x = [] /\ collapse ln (a ++ [(s, c)]) = [] /\ ln = Some c).
Proof.
  induction a as [|r a IH]; intros ln s c; cbn [app collapse snd].
  - destruct ln as [d|]; [destruct (list_eqb d c) eqn:E|]; [apply list_eqb_spec in E; subst; exists [], 0; auto|exists [], s; auto|exists [], s; auto].
  - destruct ln as [d|]; [destruct (list_eqb d (snd r)) eqn:E|].
    + apply IH.
    + destruct (IH (Some (snd r)) s c) as (x & s' & [H|(-> & H & [= H1])]); [exists (r :: x), s'; left; now rewrite H|]. exists [], (fst r). left. rewrite H. destruct r; cbn in *; subst; reflexivity.
    + destruct (IH (Some (snd r)) s c) as (x & s' & [H|(-> & H & [= H1])]); [exists (r :: x), s'; left; now rewrite H|]. exists [], (fst r). left. rewrite H. destruct r; cbn in *; subst; reflexivity.
Qed.

Lemma collapse_nil b c : Forall (fun r => snd r = c) b -> collapse (Some c) b = [].
Proof. induction 1 as [|r b H F IH]; [reflexivity|]. cbn [collapse]. rewrite H, list_eqb_refl. exact IH. Qed.

Lemma collapse_cons b c : forall r, In r b -> snd r <> c -> collapse (Some c) b <> [].
Proof.
  induction b as [|x b IH]; intros r []; cbn [collapse].
  - subst. intros N. destruct (list_eqb c (snd r)) eqn:E; [apply list_eqb_spec in E; congruence|discriminate].
  - intros N. destruct (list_eqb c (snd x)); [eauto|discriminate].
Qed.

Lemma entries_le ns l rows a : Forall2 (entry ns) l rows -> Forall (fun r => fst r <= a) rows -> Forall (fun e => fst e <= a) l.
Proof. induction 1 as [|e r l rows (E & _) _ IH]; intros F; [constructor|]. inversion F; subst. constructor; [lia|auto]. Qed.

Lemma entries_gt ns l rows a : Forall2 (entry ns) l rows -> Forall (fun r => a < fst r) rows -> Forall (fun e => a < fst e) l.
Proof. induction 1 as [|e r l rows (E & _) _ IH]; intros F; [constructor|]. inversion F; subst. constructor; [lia|auto]. Qed.

Lemma Forall_collapse (P : Z * name -> Prop) rows ln : Forall P rows -> Forall P (collapse ln rows).
Proof. intros F. apply Forall_forall. intros r H. apply collapse_in in H. exact (proj1 (Forall_forall _ _) F r H). Qed.

Lemma lookup_found t k a b s c after : Forall2 (entry (countries t)) (nth k (buckets t) []) (collapse None ((b ++ [(s, c)]) ++ after)) ->
  Forall (fun r => fst r <= a) (b ++ [(s, c)]) -> Forall (fun r => a < fst r) after -> (exists r, In r after /\ snd r <> c) -> getFrom t a k = Ok c.
Proof.
  intros F A B (r & R1 & R2). rewrite collapse_app in F. destruct (collapse_last b None s c) as (x & s' & [H|(_ & _ & [=])]).
  unfold lastName in F. rewrite fold_left_app in F. cbn [fold_left snd] in F. pose proof (Forall_collapse _ _ None A) as A'. rewrite H in F, A'.
  apply Forall2_app_inv_r in F. destruct F as (l1 & l2 & F1 & F2 & F3).
  pose proof (entries_le _ _ _ _ F1 A') as G1. pose proof (entries_gt _ _ _ _ F2 (Forall_collapse _ _ (Some c) B)) as G2.
  apply Forall2_app_inv_r in F1. destruct F1 as (m1 & m2 & M1 & M2 & ->). inversion M2 as [|e ? ? ? (E1 & E2 & E3) M3]; subst. inversion M3; subst.
  rewrite (getFrom_found t a k m1 e l2 F3 G1 G2); [rewrite E3; reflexivity|]. intros ->. apply Forall2_length in F2. destruct (collapse (Some c) after) eqn:Q; [|discriminate]. exact (collapse_cons _ _ _ R1 R2 Q).
Qed.

Lemma lookup_last t k a b s c after : Forall2 (entry (countries t)) (nth k (buckets t) []) (collapse None ((b ++ [(s, c)]) ++ after)) ->
  Forall (fun r => fst r <= a) (b ++ [(s, c)]) -> Forall (fun r => snd r = c) after -> getFrom t a k = Ok [].
Proof.
  intros F A B. rewrite collapse_app in F. unfold lastName in F. rewrite fold_left_app in F. cbn [fold_left snd] in F. rewrite (collapse_nil after c B), app_nil_r in F.
  apply (getFrom_nothing t a k (nth k (buckets t) []) []); [now rewrite app_nil_r| |constructor|now right]. eapply entries_le; [exact F|]. now apply Forall_collapse.
Qed.

Lemma lookup_before t k a after : Forall2 (entry (countries t)) (nth k (buckets t) []) (collapse None after) -> Forall (fun r => a < fst r) after -> getFrom t a k = Ok [].
Proof.
  intros F B. apply (getFrom_nothing t a k [] (nth k (buckets t) [])); [reflexivity|constructor| |now left]. eapply entries_gt; [exact F|]. now apply Forall_collapse.
Qed.

Lemma indexOf_byte a : 0 <= a < 4294967296 -> indexOf a = Z.to_nat (first_byte a) /\ 0 <= first_byte a < 256.
Proof.
  intros A. unfold indexOf, first_byte, u8. rewrite Z.shiftr_div_pow2 by lia. change (2 ^ 24) with 16777216.
  assert (0 <= a / 16777216 < 256) by (split; [apply Z.div_pos; lia|apply Z.div_lt_upper_bound; lia]). rewrite Z.mod_small by assumption. auto.
Qed.

Lemma indexOf_eq a b : 0 <= a < 4294967296 -> 0 <= b < 4294967296 -> ((indexOf a =? indexOf b)%nat = true <-> first_byte a = first_byte b).
Proof. intros A B. destruct (indexOf_byte a A), (indexOf_byte b B). rewrite Nat.eqb_eq. lia. Qed.

Lemma sorted_split before (r : Z * name) after : StronglySorted (fun r r' => fst r < fst r') (before ++ r :: after) -> Forall (fun r' => fst r' < fst r) before.
Proof.
  induction before as [|x before IH]; intros S; [constructor|]. cbn [app] in S. inversion S as [|? ? S' F]; subst. constructor; [|auto].
  apply Forall_app in F. destruct F as [_ F]. now inversion F.
Qed.

Lemma Forall_filter {A} (P : A -> Prop) f l : Forall P l -> Forall P (filter f l).
Proof. induction 1; cbn; [constructor|]. destruct (f x); auto. Qed.

(* --- a file that was cut --- *)

Definition most_ok (n : Z) (b : list (Z * Z)) : Prop := Forall (fun e => 0 <= snd e < n) (removelast b).

Lemma lowerBound_range l a : forall fuel first len, (first <= lowerBound fuel l a first len <= first + len)%nat.
Proof.
  induction fuel as [|fuel IH]; intros first len; cbn [lowerBound]; [lia|]. destruct len as [|n]; [lia|]. cbv zeta. set (h := Nat.div2 (S n)).
  assert (H : (h < S n)%nat) by (apply Nat.lt_div2; lia). clearbody h. destruct (fst (nth (first + h) l (0, 0)) <=? a).
  - specialize (IH (first + h + 1)%nat (S n - h - 1)%nat). lia.
  - specialize (IH first h). lia.
Qed.

Lemma nth_removelast {A} (l : list A) d : forall i, (S i < length l)%nat -> nth i (removelast l) d = nth i l d /\ (i < length (removelast l))%nat.
Proof.
  induction l as [|x l IH]; intros i H; [cbn in H; lia|]. destruct l as [|y l]; [cbn in H; lia|]. change (removelast (x :: y :: l)) with (x :: removelast (y :: l)).
  destruct i; cbn [nth length]; [split; [reflexivity|lia]|]. destruct (IH i) as [A1 A2]; [cbn in *; lia|]. split; [exact A1|lia].
Qed.

Lemma getFrom_safe t a k : most_ok (zlen (countries t)) (nth k (buckets t) []) -> exists c, getFrom t a k = Ok c.
Proof.
  intros M. unfold getFrom. cbv zeta. set (l := nth k (buckets t) []) in *. pose proof (lowerBound_range l a (length l) 0 (length l)) as R.
  set (it := lowerBound (length l) l a 0 (length l)) in *. clearbody it l. destruct (Nat.eqb_spec it (length l)); [cbn; eauto|]. destruct (Nat.eqb_spec it 0); [cbn; eauto|]. cbn [orb].
  destruct (nth_removelast l (0, 0) (it - 1)) as [E L]; [lia|]. pose proof (proj1 (Forall_nth _ _) M (it - 1)%nat (0, 0) L) as B. cbn beta in B. rewrite E in B.
  destruct (nth_error (countries t) (Z.to_nat (snd (nth (it - 1) l (0, 0))))) eqn:Q; [eauto|]. apply nth_error_None in Q. unfold zlen in B. lia.
Qed.

Lemma removelast_snoc {A} (l : list A) x : removelast (l ++ [x]) = l.
Proof. rewrite removelast_app by discriminate. cbn. apply app_nil_r. Qed.

Definition full_ok (n : Z) (b : list (Z * Z)) : Prop := Forall (fun e => 0 <= snd e < n) b.
Definition file_entry (e : Z * Z) : Prop := 0 <= fst e < 4294967296 /\ 0 <= snd e < 65536 /\ snd e <> 17733.

Lemma removelast_Forall {A} (P : A -> Prop) l : Forall P l -> Forall P (removelast l).
Proof. induction 1 as [|x l H F IH]; [constructor|]. destruct l; [constructor|]. change (removelast (x :: a :: l)) with (x :: removelast (a :: l)). constructor; assumption. Qed.

Lemma full_most n b : full_ok n b -> most_ok n b.
Proof. apply removelast_Forall. Qed.

Lemma six_cut e0 e1 e2 e3 e4 e5 (n : nat) (l : list Z) : (6 <= n)%nat -> firstn n ([e0; e1; e2; e3; e4; e5] ++ l) = [e0; e1; e2; e3; e4; e5] ++ firstn (n - 6) l.
Proof. intros H. do 6 (destruct n as [|n]; [lia|]). cbn [app firstn]. replace (S (S (S (S (S (S n))))) - 6)%nat with n by lia. reflexivity. Qed.

Lemma le_six ip c : le 4 ip ++ le 2 c = [ip mod 256; ip / 256 mod 256; ip / 256 / 256 mod 256; ip / 256 / 256 / 256 mod 256; c mod 256; c / 256 mod 256].
Proof. reflexivity. Qed.

Lemma upd_in_mid (d : list (list (Z * Z))) cur r e : (length d <? length (d ++ cur :: r))%nat = true /\ upd (length d) (nth (length d) (d ++ cur :: r) [] ++ [e]) (d ++ cur :: r) = d ++ (cur ++ [e]) :: r.
Proof. split; [apply Nat.ltb_lt; rewrite app_length; cbn; lia|]. now rewrite nth_mid, upd_mid. Qed.

(** A cut in less than six bytes leaves the list, or puts one more entry at the end of its last bucket. *)
Lemma cut_six e0 e1 e2 e3 e4 e5 l n d cur r : (n < 6)%nat -> exists cur', readEntries (length d) (d ++ cur :: r) (firstn n ([e0; e1; e2; e3; e4; e5] ++ l)) = Ok (d ++ cur' :: r) /\ (cur' = cur \/ exists e, cur' = cur ++ [e]).
Proof.
  intros H. do 5 (destruct n as [|n]; [exists cur; split; [reflexivity|now left]|]). destruct n as [|n]; [|lia]. cbn [firstn app readEntries].
  unfold addEntry. destruct (unle [e4; 69] =? 17733); [exists cur; split; [reflexivity|now left]|].
  destruct (upd_in_mid d cur r (unle [e0; e1; e2; e3], unle [e4; 69])) as [A B]. rewrite A, B. cbn [bind fst snd]. eexists. split; [reflexivity|]. right. eauto.
Qed.

Lemma readEntries_cut m : forall bs d, Forall (Forall file_entry) bs -> Forall (full_ok m) bs ->
  forall b cur n, Forall file_entry b -> full_ok m (cur ++ b) ->
  exists r, readEntries (length d) (d ++ cur :: repeat [] (length bs)) (firstn n (flat_map (fun e => le 4 (fst e) ++ le 2 (snd e)) b ++ [69; 69; 69; 69; 69; 69] ++ flat_map bucketBytes bs)) = Ok (d ++ r) /\ Forall (most_ok m) r.
Proof.
  assert (NIL : forall k, Forall (most_ok m) (repeat [] k)) by (intros k; apply Forall_forall; intros x Hx; apply repeat_spec in Hx; subst; constructor).
  induction bs as [|b0 bs IH]; intros d FE FO; induction b as [|[ip c] b IHb]; intros cur n FB FC.
  - cbn [flat_map app]. rewrite app_nil_r in FC. destruct (Nat.lt_ge_cases n 6) as [L|L].
    + destruct (cut_six 69 69 69 69 69 69 [] n d cur [] L) as (cur' & Q & W). cbn [app] in Q. cbn [length repeat]. rewrite Q. exists [cur']. split; [reflexivity|]. constructor; [|constructor].
      destruct W as [->|[e ->]]; [now apply full_most|]. unfold most_ok. now rewrite removelast_snoc.
    + rewrite firstn_all2 by (cbn; lia). exists [cur]. split; [reflexivity|]. constructor; [now apply full_most|constructor].
  - inversion FB as [|? ? (A & B & C) FB']; subst. cbn [flat_map fst snd] in *. rewrite <- (app_assoc (le 4 ip ++ le 2 c)), le_six. destruct (Nat.lt_ge_cases n 6) as [L|L].
    + destruct (cut_six (ip mod 256) (ip / 256 mod 256) (ip / 256 / 256 mod 256) (ip / 256 / 256 / 256 mod 256) (c mod 256) (c / 256 mod 256) (flat_map (fun e => le 4 (fst e) ++ le 2 (snd e)) b ++ [69; 69; 69; 69; 69; 69] ++ []) n d cur [] L) as (cur' & Q & W).
      cbn [length repeat]. rewrite Q. exists [cur']. split; [reflexivity|]. constructor; [|constructor]. apply Forall_app in FC. destruct FC as [FC _].
      destruct W as [->|[e ->]]; [now apply full_most|]. unfold most_ok. now rewrite removelast_snoc.
    + rewrite six_cut by assumption. rewrite <- le_six, readEntries_one, !unle_le by (change (256 ^ Z.of_nat 4) with 4294967296; change (256 ^ Z.of_nat 2) with 65536; lia).
      unfold addEntry. destruct (Z.eqb_spec c 17733); [contradiction|]. cbn [length repeat]. destruct (upd_in_mid d cur [] (ip, c)) as [U1 U2]. rewrite U1, U2. cbn [bind fst snd].
      apply (IHb (cur ++ [(ip, c)]) (n - 6)%nat FB'). rewrite <- app_assoc. exact FC.
  - rewrite app_nil_r in FC. cbn [flat_map app length repeat] in *. inversion FE as [|? ? FE1 FE2]; subst. inversion FO as [|? ? FO1 FO2]; subst. destruct (Nat.lt_ge_cases n 6) as [L|L].
    + destruct (cut_six 69 69 69 69 69 69 (bucketBytes b0 ++ flat_map bucketBytes bs) n d cur ([] :: repeat [] (length bs)) L) as (cur' & Q & W). cbn [app] in Q. rewrite Q. eexists. split; [reflexivity|].
      constructor; [|constructor; [constructor|apply NIL]]. destruct W as [->|[e ->]]; [now apply full_most|]. unfold most_ok. now rewrite removelast_snoc.
    + pose proof (six_cut 69 69 69 69 69 69 n (bucketBytes b0 ++ flat_map bucketBytes bs) L) as SC. cbn [app] in SC. rewrite SC.
      change (69 :: 69 :: 69 :: 69 :: 69 :: 69 :: firstn (n - 6) (bucketBytes b0 ++ flat_map bucketBytes bs)) with ([69; 69; 69; 69; 69; 69] ++ firstn (n - 6) (bucketBytes b0 ++ flat_map bucketBytes bs)).
      rewrite readEntries_end. destruct (IH (d ++ [cur]) FE2 FO2 b0 [] (n - 6)%nat FE1 FO1) as (r & Q & W). rewrite app_length in Q. cbn [length] in Q. rewrite Nat.add_1_r, <- !app_assoc in Q. cbn [app] in Q.
      unfold bucketBytes at 1. rewrite <- app_assoc. cbn [app]. rewrite Q. exists (cur :: r). split; [reflexivity|]. constructor; [now apply full_most|exact W].
  - inversion FB as [|? ? (A & B & C) FB']; subst. cbn [flat_map fst snd] in *. rewrite <- (app_assoc (le 4 ip ++ le 2 c)), le_six. destruct (Nat.lt_ge_cases n 6) as [L|L].
    + destruct (cut_six (ip mod 256) (ip / 256 mod 256) (ip / 256 / 256 mod 256) (ip / 256 / 256 / 256 mod 256) (c mod 256) (c / 256 mod 256)
        (flat_map (fun e => le 4 (fst e) ++ le 2 (snd e)) b ++ [69; 69; 69; 69; 69; 69] ++ bucketBytes b0 ++ flat_map bucketBytes bs) n d cur (repeat [] (length (b0 :: bs))) L) as (cur' & Q & W).
      rewrite Q. eexists. split; [reflexivity|]. constructor; [|apply NIL]. apply Forall_app in FC. destruct FC as [FC _].
      destruct W as [->|[e ->]]; [now apply full_most|]. unfold most_ok. now rewrite removelast_snoc.
    + rewrite six_cut by assumption. rewrite <- le_six, readEntries_one, !unle_le by (change (256 ^ Z.of_nat 4) with 4294967296; change (256 ^ Z.of_nat 2) with 65536; lia).
      unfold addEntry. destruct (Z.eqb_spec c 17733); [contradiction|]. destruct (upd_in_mid d cur (repeat [] (length (b0 :: bs))) (ip, c)) as [U1 U2]. rewrite U1, U2. cbn [bind fst snd].
      apply (IHb (cur ++ [(ip, c)]) (n - 6)%nat FB'). rewrite <- app_assoc. exact FC.
Qed.

Lemma readNames_cut ns : forall cs n, Forall name_ok ns -> (n <= length (flat_map (fun c : list Z => c ++ [10%Z]) ns))%nat ->
  exists cs', readNames cs [] (firstn n (flat_map (fun c => c ++ [10]) ns)) = (cs', None).
Proof.
  induction ns as [|c ns IH]; intros cs n F L; [destruct n; cbn; eauto|]. inversion F as [|? ? [C1 C2] F']; subst. cbn [flat_map] in *. rewrite app_length in L.
  destruct (Nat.le_gt_cases n (length c)) as [B|B].
  - rewrite <- app_assoc, firstn_app. replace (n - length c)%nat with 0%nat by lia. rewrite firstn_O. rewrite readNames_line; [cbn; eauto|]. intros H. apply C2. rewrite <- (firstn_skipn n c). apply in_or_app. now left.
  - rewrite firstn_app. rewrite (firstn_all2 (c ++ [10])) by (rewrite app_length; cbn; lia). rewrite <- app_assoc, readNames_line by assumption. cbn [app readNames]. change (10 =? 10) with true. cbv iota.
    destruct c as [|x c]; [congruence|]. apply IH; [assumption|]. cbn [app length] in *. rewrite !app_length in *. cbn [length] in *. lia.
Qed.
