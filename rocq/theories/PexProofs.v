From Coq Require Import Sorted.
From Verif Require Import Base BaseLemmas Dec DecLemmas PacketModel PacketProofs AddrModel AddrSpec AddrProofs BencodeModel BencodeSpec BencodeProofs PexModel.

(** ** Sets of IPv4 addresses *)

Definition ok4 (a : addr) : Prop := addr_ok a /\ ipv6 a = false.
Definition altb (a b : addr) : Prop := addrLt a b = true.
Definition names (l : list addr) (x : bool * list Z * Z) : Prop := In x (map meaning l).

Lemma alt_key a b : ok4 a -> ok4 b -> (altb a b <-> port a < port b \/ (port a = port b /\ lex_lt (firstn 4 (addrBytes a)) (firstn 4 (addrBytes b)))).
Proof. intros [A F] [B _]. unfold altb. rewrite addrLt_iff by assumption. rewrite F. reflexivity. Qed.

Lemma alt_meaning a b a' b' : ok4 a -> ok4 b -> ok4 a' -> ok4 b' -> meaning a = meaning a' -> meaning b = meaning b' -> altb a b -> altb a' b'.
Proof.
  intros A B A' B' E1 E2 H. apply alt_key in H; try assumption. apply alt_key; try assumption.
  unfold meaning in *. destruct A as [_ A], B as [_ B], A' as [_ A'], B' as [_ B']. rewrite A, A' in E1. rewrite B, B' in E2. cbn [addrSize] in *.
  pose proof (f_equal snd E1) as P1. pose proof (f_equal snd E2) as P2. pose proof (f_equal (fun x => snd (fst x)) E1) as Q1. pose proof (f_equal (fun x => snd (fst x)) E2) as Q2.
  cbn [fst snd] in *. rewrite <- Q1, <- Q2, <- P1, <- P2. exact H.
Qed.

Lemma alt_irr a b : ok4 a -> ok4 b -> altb a b -> meaning a <> meaning b.
Proof.
  intros A B H E. assert (altb a a) as X by (apply (alt_meaning a b a a A B A A eq_refl (eq_sym E)), H).
  unfold altb in X. rewrite addrLt_irrefl in X by apply A. discriminate.
Qed.

Lemma alt_total a b : ok4 a -> ok4 b -> addrLt a b = false -> addrLt b a = false -> meaning a = meaning b.
Proof.
  intros A B H1 H2. destruct (addrLt_total a b) as [H|[H|H]]; try apply A; try apply B; [destruct A, B; congruence| |congruence|congruence].
  apply addrEq_family in H; [exact H|apply A|apply B|destruct A, B; congruence].
Qed.

Lemma alt_tr a b c : ok4 a -> ok4 b -> ok4 c -> altb a b -> altb b c -> altb a c.
Proof. intros [A FA] [B FB] [C FC]. apply addrLt_trans; try assumption; congruence. Qed.

Lemma asInsert_ok a l : ok4 a -> Forall ok4 l -> StronglySorted altb l ->
  Forall ok4 (asInsert a l) /\ StronglySorted altb (asInsert a l) /\ (forall x, names (asInsert a l) x <-> x = meaning a \/ names l x) /\
  (forall b, In b (asInsert a l) -> b = a \/ In b l).
Proof.
  intros A. induction l as [|b l IH]; intros F S; cbn [asInsert].
  - refine (conj _ (conj _ (conj _ _))); [now constructor|repeat constructor|intros x; cbn; intuition|cbn; intuition].
  - inversion F as [|? ? B F']; subst. inversion S as [|? ? S' R]; subst. destruct (addrLt a b) eqn:E1.
    + refine (conj _ (conj _ (conj _ _))); [now constructor| |intros x; cbn; intuition|cbn; intuition].
      constructor; [assumption|]. constructor; [assumption|]. rewrite Forall_forall in *. intros c C. apply (alt_tr a b c); auto.
    + destruct (addrLt b a) eqn:E2.
      * destruct (IH F' S') as (I1 & I2 & I3 & I4). refine (conj _ (conj _ (conj _ _))); [now constructor| | |].
        -- constructor; [assumption|]. rewrite Forall_forall in *. intros c C. destruct (I4 c C) as [->|C']; [exact E2|auto].
        -- intros x. unfold names in *. cbn [map In]. rewrite I3. intuition.
        -- intros c [<-|C]; [cbn; auto|]. destruct (I4 c C); cbn; auto.
      * pose proof (alt_total a b A B E1 E2) as M. refine (conj F (conj S (conj _ _))); [|cbn; intuition].
        intros x. unfold names. cbn [map In]. rewrite M. intuition.
Qed.

Lemma asErase_ok a l : ok4 a -> Forall ok4 l -> StronglySorted altb l ->
  Forall ok4 (asErase a l) /\ StronglySorted altb (asErase a l) /\ (forall x, names (asErase a l) x <-> names l x /\ x <> meaning a) /\
  (forall b, In b (asErase a l) -> In b l).
Proof.
  intros A. induction l as [|b l IH]; intros F S; cbn [asErase].
  - refine (conj F (conj S (conj _ _))); [cbn; intuition|auto].
  - inversion F as [|? ? B F']; subst. inversion S as [|? ? S' R]; subst. destruct (addrLt a b) eqn:E1.
    + refine (conj F (conj S (conj _ _))); [|auto]. intros x. split; [|tauto]. intros H. split; [exact H|]. intros ->.
      unfold names in H. cbn [map In] in H. destruct H as [H|H]; [exact (alt_irr a b A B E1 (eq_sym H))|].
      apply in_map_iff in H as (c & M & C). rewrite Forall_forall in R, F'. apply (alt_irr a c A (F' c C)); [|congruence].
      apply (alt_tr a b c); auto.
    + destruct (addrLt b a) eqn:E2.
      * destruct (IH F' S') as (I1 & I2 & I3 & I4). refine (conj _ (conj _ (conj _ _))); [now constructor| | |].
        -- constructor; [assumption|]. rewrite Forall_forall in *. auto.
        -- intros x. unfold names in *. cbn [map In]. rewrite I3. split; [|tauto]. intros [<-|H]; [|tauto]. split; [auto|]. intros H.
           exact (alt_irr b a B A E2 H).
        -- intros c [<-|C]; cbn; auto.
      * pose proof (alt_total a b A B E1 E2) as M. refine (conj F' (conj S' (conj _ _))); [|cbn; auto].
        intros x. unfold names. cbn [map In]. rewrite M. split; [|intros [[H|H] H2]; [congruence|exact H]]. intros H. split; [auto|]. intros ->.
        apply in_map_iff in H as (c & M' & C). rewrite Forall_forall in R, F'. exact (alt_irr b c B (F' c C) (R c C) (eq_sym M')).
Qed.

Lemma asFind_ok a l : ok4 a -> Forall ok4 l -> StronglySorted altb l -> (asFind a l = true <-> names l (meaning a)).
Proof.
  intros A. induction l as [|b l IH]; intros F S; cbn [asFind]; [cbn; split; [discriminate|tauto]|].
  inversion F as [|? ? B F']; subst. inversion S as [|? ? S' R]; subst. unfold names in *. cbn [map In]. destruct (addrLt a b) eqn:E1.
  - split; [discriminate|]. intros [H|H]; exfalso.
    + exact (alt_irr a b A B E1 (eq_sym H)).
    + apply in_map_iff in H as (c & M & C). rewrite Forall_forall in R, F'. apply (alt_irr a c A (F' c C)); [|congruence].
      apply (alt_tr a b c); auto.
  - destruct (addrLt b a) eqn:E2.
    + rewrite IH by assumption. split; [auto|]. intros [H|H]; [|exact H]. exfalso. exact (alt_irr b a B A E2 H).
    + split; [intros _; left; symmetry; now apply alt_total|reflexivity].
Qed.

Lemma sorted_names_nodup l : Forall ok4 l -> StronglySorted altb l -> NoDup (map meaning l).
Proof.
  induction 1 as [|b l B F IH]; intros S; [constructor|]. inversion S as [|? ? S' R]; subst. cbn [map]. constructor; [|auto].
  intros H. apply in_map_iff in H as (c & M & C). rewrite Forall_forall in R, F. exact (alt_irr b c B (F c C) (R c C) (eq_sym M)).
Qed.

(** ** The loop of [update] *)

Lemma pexPeer_fold ps : Forall (fun p => ok4 (ppAddr p)) ps -> forall added flags now old,
  Forall ok4 now -> StronglySorted altb now -> Forall ok4 old -> StronglySorted altb old -> length added = length flags -> zlen flags <= 50 ->
  exists now' old', fold_left pexPeer ps (added, flags, now, old) =
    (added ++ map ppAddr (firstn (50 - length flags) ps), flags ++ map ppFlags (firstn (50 - length flags) ps), now', old') /\
    Forall ok4 now' /\ StronglySorted altb now' /\ (forall x, names now' x <-> names (map ppAddr ps) x \/ names now x) /\
    Forall ok4 old' /\ StronglySorted altb old' /\ (forall x, names old' x <-> names old x /\ ~ names (map ppAddr ps) x) /\
    (forall b, In b old' -> In b old) /\ (length old' <= length old)%nat.
Proof.
  induction 1 as [|p ps P _ IH]; intros added flags now old N1 N2 O1 O2 L C.
  - exists now, old. cbn [fold_left]. rewrite firstn_nil. cbn [map]. rewrite !app_nil_r. split; [reflexivity|].
    split; [exact N1|]. split; [exact N2|]. split; [unfold names; cbn; intuition|]. split; [exact O1|]. split; [exact O2|]. split; [unfold names; cbn; intuition|]. auto.
  - cbn [fold_left]. destruct (asInsert_ok (ppAddr p) now P N1 N2) as (A1 & A2 & A3 & _).
    destruct (asErase_ok (ppAddr p) old P O1 O2) as (B1 & B2 & B3 & B4).
    assert (LE : (length (asErase (ppAddr p) old) <= length old)%nat).
    { clear. induction old as [|b old IHo]; cbn [asErase]; [lia|]. destruct (addrLt _ _); [lia|]. destruct (addrLt _ _); cbn [length]; lia. }
    unfold pexPeer at 2. destruct P as [P P4]. rewrite P4. cbn [negb]. rewrite andb_true_r.
    destruct (Z.ltb_spec (zlen flags) 50) as [H|H].
    + destruct (IH (added ++ [ppAddr p]) (flags ++ [ppFlags p]) _ _ A1 A2 B1 B2) as (now' & old' & E & I); [rewrite !app_length; cbn [length]; lia|rewrite zlen_app; unfold zlen in *; cbn [length]; lia|].
      exists now', old'. rewrite E. destruct I as (I1 & I2 & I3 & I4 & I5 & I6 & I7 & I8). split.
      { rewrite app_length. cbn [length]. unfold zlen in H. replace (50 - length flags)%nat with (S (50 - (length flags + 1))) by lia. cbn [firstn map].
        rewrite <- !app_assoc. reflexivity. }
      refine (conj I1 (conj I2 (conj _ (conj I4 (conj I5 (conj _ (conj _ _))))))).
      * intros x. rewrite I3, A3. unfold names. cbn [map In]. split; [intros [H1|[H1|H1]]; auto|intros [[H1|H1]|H1]; auto].
      * intros x. rewrite I6, B3. unfold names. cbn [map In]. split; [intros [[H1 H2] H3]; split; [exact H1|intros [H4|H4]; [apply H2; now symmetry|auto]]|
          intros [H1 H2]; refine (conj (conj H1 _) _); [intros ->; auto|auto]].
      * auto.
      * lia.
    + destruct (IH added flags _ _ A1 A2 B1 B2) as (now' & old' & E & I); [assumption|assumption|].
      exists now', old'. rewrite E. destruct I as (I1 & I2 & I3 & I4 & I5 & I6 & I7 & I8). split.
      { unfold zlen in H. replace (50 - length flags)%nat with 0%nat by lia. reflexivity. }
      refine (conj I1 (conj I2 (conj _ (conj I4 (conj I5 (conj _ (conj _ _))))))).
      * intros x. rewrite I3, A3. unfold names. cbn [map In]. split; [intros [H1|[H1|H1]]; auto|intros [[H1|H1]|H1]; auto].
      * intros x. rewrite I6, B3. unfold names. cbn [map In]. split; [intros [[H1 H2] H3]; split; [exact H1|intros [H4|H4]; [apply H2; now symmetry|auto]]|
          intros [H1 H2]; refine (conj (conj H1 _) _); [intros ->; auto|auto]].
      * auto.
      * lia.
Qed.

(** ** Texts *)

Definition compact (l : list addr) : list Z := concat (map (fun a => firstn (if ipv6 a then 16 else 4) (addrBytes a) ++ be 2 (port a)) l).

Lemma toDatas_compact l : toDatas l = compact l.
Proof. unfold toDatas, compact. f_equal. apply map_ext. intros a. unfold toData. rewrite le_bswap. reflexivity. Qed.

Lemma compact_length l : Forall ok4 l -> length (compact l) = (6 * length l)%nat.
Proof.
  induction 1 as [|a l ((L & _) & F) _ IH]; [reflexivity|]. unfold compact in *. cbn [map concat length]. rewrite !app_length, IH, be_length, F, firstn_length, L. lia.
Qed.

Lemma compact_bytes l : Forall ok4 l -> bytes_ok (compact l).
Proof.
  induction 1 as [|a l ((L & B & _) & F) _ IH]; [constructor|]. unfold compact in *. cbn [map concat]. apply bytes_ok_app. split; [|exact IH].
  apply bytes_ok_app. split; [|apply be_bytes]. unfold bytes_ok in *. rewrite <- (firstn_skipn (if ipv6 a then 16%nat else 4%nat) (addrBytes a)) in B. now apply Forall_app in B.
Qed.

Lemma readAddrs_ok l : Forall ok4 l -> forall fuel old, (length l < fuel \/ (fuel = length l)%nat)%nat ->
  exists r, readAddrs fuel old false (compact l) = r /\ map meaning r = map meaning l.
Proof.
  induction 1 as [|a l [A F] _ IH]; intros fuel old L.
  - exists []. split; [|reflexivity]. destruct fuel; reflexivity.
  - destruct fuel as [|fuel]; [cbn in L; lia|]. cbn [readAddrs].
    assert (E : compact (a :: l) = toData a ++ compact l) by (unfold compact; cbn [map concat]; unfold toData; rewrite le_bswap; reflexivity).
    destruct (parse_toData old a (compact l) A) as (a' & P & M). rewrite F in P. rewrite E, P.
    unfold zlen. rewrite Nat2Z.id, skipn_app_exact. destruct (IH fuel old) as (r & R & MR); [cbn [length] in L; lia|]. rewrite R.
    eexists. split; [reflexivity|]. cbn [map]. now rewrite M, MR.
Qed.
