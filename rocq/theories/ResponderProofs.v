From Coq Require Import Permutation.
From Verif Require Import Base BaseLemmas AddrModel AddrSpec AddrProofs ResponderModel ResponderSpec.

Lemma token_sum text : forall s, 0 <= s < 2 ^ 32 -> getAnnounceToken text s = (s + sum text) mod 2 ^ 32.
Proof.
  unfold getAnnounceToken. induction text as [|c text IH]; intros s H.
  - cbn. rewrite Z.add_0_r. now rewrite Z.mod_small.
  - cbn [fold_left sum fold_right]. rewrite IH by (unfold u32; change 4294967296 with (2 ^ 32); apply Z.mod_pos_bound; lia).
    unfold u32. change 4294967296 with (2 ^ 32). rewrite Zplus_mod_idemp_l. f_equal. fold (sum text). lia.
Qed.

Lemma sum_perm a b : Permutation a b -> sum a = sum b.
Proof. induction 1; unfold sum in *; cbn [fold_right]; lia. Qed.

(** * The map *)

Lemma lookup_store_same h v m : lookup h (store h v m) = Some v.
Proof.
  induction m as [|[k w] m IH]; cbn; [now rewrite list_eqb_refl|]. destruct (list_eqb k h) eqn:E; cbn; rewrite E; [reflexivity|assumption].
Qed.

Lemma lookup_store_other h k v m : h <> k -> lookup h (store k v m) = lookup h m.
Proof.
  intros N. induction m as [|[x w] m IH]; cbn.
  - destruct (list_eqb k h) eqn:E; [apply list_eqb_spec in E; congruence|reflexivity].
  - destruct (list_eqb x k) eqn:E; cbn; [apply list_eqb_spec in E; subst; destruct (list_eqb k h) eqn:E2; [apply list_eqb_spec in E2; congruence|reflexivity]|].
    destruct (list_eqb x h); [reflexivity|assumption].
Qed.

Definition keys_ok (m : values) : Prop := NoDup (map fst m).

Lemma store_in h v m k : In k (map fst (store h v m)) -> k = h \/ In k (map fst m).
Proof.
  induction m as [|[x w] m IH]; cbn; [intuition congruence|]. destruct (list_eqb x h); cbn; [tauto|]. intros [Q|Q]; [tauto|]. apply IH in Q. tauto.
Qed.

Lemma store_keys h v m : keys_ok m -> keys_ok (store h v m).
Proof.
  unfold keys_ok. induction m as [|[x w] m IH]; intros H; cbn; [repeat constructor; auto|]. cbn in H. inversion H as [|? ? N1 N2]; subst. destruct (list_eqb x h) eqn:E; cbn; [assumption|].
  constructor; [|auto]. intros Q. apply store_in in Q. destruct Q as [Q|Q]; [subst; now rewrite list_eqb_refl in E|contradiction].
Qed.

Definition keep (now : Z) (l : list storedValue) : list storedValue := filter (fun x => negb (timestamp x <? u64 (now - 1800))) l.

Lemma lookup_none_in h m : lookup h m = None <-> ~ In h (map fst m).
Proof.
  induction m as [|[k v] m IH]; cbn; [tauto|]. destruct (list_eqb k h) eqn:E.
  - apply list_eqb_spec in E. split; [discriminate|tauto].
  - assert (k <> h) by (intros ->; now rewrite list_eqb_refl in E). rewrite IH. tauto.
Qed.

Lemma refresh_stored m now h : keys_ok m -> stored (refreshStoredValues m now) h = keep now (stored m h).
Proof.
  unfold keys_ok, stored, refreshStoredValues, keep. induction m as [|[k v] m IH]; intros K; [reflexivity|]. cbn in K. inversion K as [|? ? K1 K2]; subst. specialize (IH K2).
  cbn [map filter lookup]. set (f := filter (fun x => negb (timestamp x <? u64 (now - 1800)))) in *.
  destruct (list_eqb k h) eqn:E.
  - apply list_eqb_spec in E. subst h. destruct (f v) as [|x l] eqn:Fv.
    + assert (N : lookup k m = None) by now apply lookup_none_in. rewrite N in IH. cbn in IH. exact IH.
    + cbn [lookup]. rewrite list_eqb_refl. reflexivity.
  - destruct (f v) as [|x l]; [exact IH|]. cbn [lookup]. rewrite E. exact IH.
Qed.

Lemma refresh_keys m now : keys_ok m -> keys_ok (refreshStoredValues m now).
Proof.
  unfold keys_ok, refreshStoredValues. induction m as [|[k v] m IH]; intros K; [constructor|]. cbn in K. inversion K as [|? ? K1 K2]; subst. cbn [map filter].
  assert (G : forall x, In x (map fst (filter (fun '(_, v0) => match v0 with [] => false | _ :: _ => true end) (map (fun '(k0, v0) => (k0, filter (fun x0 => negb (timestamp x0 <? u64 (now - 1800))) v0)) m))) -> In x (map fst m)).
  { clear. intros x. induction m as [|[k v] m IH]; [intros []|]. cbn [map filter]. destruct (filter _ v); cbn; [intros H; right; auto|intros [H|H]; auto]. }
  destruct (filter _ v); [auto|]. cbn [map fst]. constructor; [intros Q; apply K1; now apply G|auto].
Qed.

Lemma announce_stored maxStored m h p now k : stored (announcedPeer maxStored m h p now) k =
  if list_eqb h k then match replaceValue {| vaddr := p; timestamp := now |} (stored m h) with Some l => l | None => if zlen (stored m h) <? maxStored then stored m h ++ [{| vaddr := p; timestamp := now |}] else stored m h end
  else stored m k.
Proof.
  unfold announcedPeer, stored at 1. destruct (list_eqb h k) eqn:E.
  - apply list_eqb_spec in E. subst k. rewrite lookup_store_same. reflexivity.
  - rewrite lookup_store_other by (intros ->; now rewrite list_eqb_refl in E). reflexivity.
Qed.

Lemma run_keys maxStored os : forall m, keys_ok m -> keys_ok (run maxStored os m).
Proof.
  induction os as [|o os IH]; intros m K; [assumption|]. cbn. apply IH. destruct o; cbn; [now apply store_keys|now apply refresh_keys].
Qed.

(** * Lists of stored values *)

Definition meanings (l : list storedValue) := map (fun v => meaning (vaddr v)) l.

Lemma memcmp_firstn a b n : memcmp a b n = 0 -> (n <= length a)%nat -> (n <= length b)%nat -> firstn n a = firstn n b.
Proof.
  revert a b. induction n as [|n IH]; intros [|x a] [|y b] H La Lb; cbn in *; try lia; try reflexivity. destruct (Z.ltb_spec x y); [discriminate|]. destruct (Z.ltb_spec y x); [discriminate|].
  rewrite (IH a b) by (try assumption; lia). f_equal. lia.
Qed.

Lemma eq_meaning ps a b : no_clash ps -> In a ps -> In b ps -> addr_ok a -> addr_ok b -> (addrEq a b = true <-> meaning a = meaning b).
Proof.
  intros N Ha Hb Oa Ob. destruct (Bool.bool_dec (ipv6 a) (ipv6 b)) as [E|E]; [now apply addrEq_family|]. split.
  - intros H. exfalso. unfold addrEq in H. apply andb_true_iff in H. destruct H as [H1 H2]. apply Z.eqb_eq in H1, H2. destruct Oa as [La _], Ob as [Lb _].
    apply memcmp_firstn in H2; [|rewrite La; unfold addrSize; destruct (ipv6 a); lia|rewrite Lb; unfold addrSize; destruct (ipv6 a); lia].
    destruct (N a b Ha Hb E) as [Q|Q]; [contradiction|]. apply Q. assert (P : forall l : list Z, firstn 4 l = firstn 4 (firstn (addrSize (ipv6 a)) l)) by (intros l; rewrite firstn_firstn; unfold addrSize; destruct (ipv6 a); reflexivity).
    rewrite (P (addrBytes a)), (P (addrBytes b)). now rewrite H2.
  - intros H. unfold meaning in H. injection H as H _ _. contradiction.
Qed.

Definition list_ok (maxStored : Z) (ps : list addr) (l : list storedValue) : Prop :=
  zlen l <= maxStored /\ NoDup (meanings l) /\ Forall (fun v => In (vaddr v) ps /\ addr_ok (vaddr v)) l.

Lemma replace_some ps v l l' : no_clash ps -> In (vaddr v) ps -> addr_ok (vaddr v) -> Forall (fun v => In (vaddr v) ps /\ addr_ok (vaddr v)) l -> replaceValue v l = Some l' ->
  meanings l' = meanings l /\ Forall (fun v => In (vaddr v) ps /\ addr_ok (vaddr v)) l' /\ In v l' /\ (forall x, In x l -> meaning (vaddr x) <> meaning (vaddr v) -> In x l').
Proof.
  intros N Hv Ov. revert l'. induction l as [|x l IH]; intros l' F H; [discriminate|]. inversion F as [|? ? [F1 F2] F3]; subst. cbn in H. destruct (addrEq (vaddr x) (vaddr v)) eqn:E.
  - injection H as <-. apply (eq_meaning ps) in E; try assumption. split; [unfold meanings; cbn [map]; now rewrite E|]. split; [constructor; auto|]. split; [now left|]. intros y [->|Hy] Q; [contradiction|now right].
  - destruct (replaceValue v l) as [l0|]; [|discriminate]. injection H as <-. destruct (IH l0 F3 eq_refl) as (A & B & C & D). split; [unfold meanings in *; cbn [map]; now rewrite A|]. split; [constructor; auto|]. split; [now right|].
    intros y [->|Hy] Q; [now left|right; auto].
Qed.

Lemma replace_none ps v l : no_clash ps -> In (vaddr v) ps -> addr_ok (vaddr v) -> Forall (fun v => In (vaddr v) ps /\ addr_ok (vaddr v)) l -> replaceValue v l = None -> ~ In (meaning (vaddr v)) (meanings l).
Proof.
  intros N Hv Ov. induction l as [|x l IH]; intros F H; [intros []|]. inversion F as [|? ? [F1 F2] F3]; subst. cbn in H. destruct (addrEq (vaddr x) (vaddr v)) eqn:E; [discriminate|].
  destruct (replaceValue v l); [discriminate|]. intros [Q|Q]; [apply (eq_meaning ps) in Q; [congruence|assumption..]|now apply (IH F3 eq_refl)].
Qed.

Lemma NoDup_snoc {A} (l : list A) x : NoDup l -> ~ In x l -> NoDup (l ++ [x]).
Proof. intros H N. apply NoDup_Add with (a := x) (l := l); [rewrite <- (app_nil_r l) at 1; apply Add_app|auto]. Qed.

Lemma op_list maxStored ps m o h : no_clash ps -> incl (peers_of [o]) ps -> op_ok o -> keys_ok m -> list_ok maxStored ps (stored m h) -> list_ok maxStored ps (stored (do_op maxStored m o) h).
Proof.
  intros N I [T O] K (L & D & F). destruct o as [k p now|now]; cbn [do_op peers_of flat_map] in *.
  - rewrite announce_stored. destruct (list_eqb k h) eqn:E; [|unfold list_ok; auto]. apply list_eqb_spec in E. subst k. set (v := {| vaddr := p; timestamp := now |}).
    assert (Hp : In p ps) by (apply I; now left).
    destruct (replaceValue v (stored m h)) as [l|] eqn:R.
    + destruct (replace_some ps v _ _ N Hp O F R) as (A & B & _). unfold list_ok. rewrite A. refine (conj _ (conj D B)). unfold zlen in *. replace (length l) with (length (meanings l)) by apply map_length. rewrite A. unfold meanings. now rewrite map_length.
    + pose proof (replace_none ps v _ N Hp O F R) as X. destruct (Z.ltb_spec (zlen (stored m h)) maxStored); [|unfold list_ok; auto]. unfold list_ok. refine (conj _ (conj _ _)).
      * rewrite zlen_app. change (zlen [v]) with 1. lia.
      * unfold meanings. rewrite map_app. now apply NoDup_snoc.
      * apply Forall_app. split; [assumption|]. constructor; [cbn; auto|constructor].
  - rewrite refresh_stored by assumption. unfold keep, list_ok. set (f := fun x => negb (timestamp x <? u64 (now - 1800))). refine (conj _ (conj _ _)).
    + assert (zlen (filter f (stored m h)) <= zlen (stored m h)); [|lia]. unfold zlen. clear. induction (stored m h); cbn; [lia|]. destruct (f a); cbn [length]; lia.
    + clear -D. induction (stored m h) as [|x l IH]; [constructor|]. cbn in D. inversion D as [|? ? D1 D2]; subst. cbn [filter]. destruct (f x); [|auto]. cbn. constructor; [|auto].
      intros Q. apply D1. unfold meanings in *. apply in_map_iff in Q. destruct Q as (y & Q1 & Q2). rewrite <- Q1. apply (in_map (fun v => meaning (vaddr v))). apply filter_In in Q2. tauto.
    + rewrite Forall_forall in *. intros x Hx. apply filter_In in Hx. apply F. tauto.
Qed.

Lemma run_list maxStored ps os h : forall m, no_clash ps -> incl (peers_of os) ps -> Forall op_ok os -> keys_ok m -> list_ok maxStored ps (stored m h) -> list_ok maxStored ps (stored (run maxStored os m) h).
Proof.
  induction os as [|o os IH]; intros m N I F K L; [assumption|]. inversion F as [|? ? F1 F2]; subst. cbn. apply IH; [assumption| |assumption| |].
  - intros x Hx. apply I. unfold peers_of. cbn [flat_map]. apply in_or_app. now right.
  - destruct o; cbn; [now apply store_keys|now apply refresh_keys].
  - apply op_list; [assumption| |assumption|assumption|assumption]. intros x Hx. apply I. unfold peers_of in *. cbn [flat_map] in *. rewrite app_nil_r in Hx. apply in_or_app. now left.
Qed.

(** A stored peer stays, with its time or a later announce's, while nothing expires it. *)
Lemma op_stays maxStored ps m o h p t : no_clash ps -> incl (peers_of [o]) ps -> op_ok o -> keys_ok m -> list_ok maxStored ps (stored m h) ->
  (exists v, In v (stored m h) /\ meaning (vaddr v) = meaning p /\ t <= timestamp v) -> t <= time_of o -> time_of o - 1800 <= t ->
  exists v, In v (stored (do_op maxStored m o) h) /\ meaning (vaddr v) = meaning p /\ t <= timestamp v.
Proof.
  intros N I [T O] K (L & D & F) (v & V1 & V2 & V3) T1 T2. destruct o as [k q now|now]; cbn [do_op time_of] in *.
  - rewrite announce_stored. destruct (list_eqb k h) eqn:E; [|exists v; auto]. apply list_eqb_spec in E. subst k. set (w := {| vaddr := q; timestamp := now |}).
    assert (Hq : In q ps) by (apply I; now left).
    destruct (replaceValue w (stored m h)) as [l|] eqn:R.
    + destruct (replace_some ps w _ _ N Hq O F R) as (_ & _ & B & C). destruct (list_eq_dec Z.eq_dec [] []) as [_|]; [|contradiction].
      destruct (addrEq (vaddr v) q) eqn:Q.
      * rewrite Forall_forall in F. destruct (F v V1). apply (eq_meaning ps) in Q; try assumption. exists w. split; [assumption|]. split; [cbn; congruence|cbn; lia].
      * exists v. split; [|auto]. apply C; [assumption|]. intros Z. rewrite Forall_forall in F. destruct (F v V1). apply (eq_meaning ps) in Z; try assumption. cbn in Z. congruence.
    + exists v. split; [|auto]. destruct (_ <? _); [apply in_or_app; now left|assumption].
  - rewrite refresh_stored by assumption. exists v. split; [|auto]. apply filter_In. split; [assumption|]. unfold u64. rewrite Z.mod_small by lia. destruct (Z.ltb_spec (timestamp v) (now - 1800)); [lia|reflexivity].
Qed.

Lemma run_stays maxStored ps os h p t : forall m, no_clash ps -> incl (peers_of os) ps -> Forall op_ok os -> keys_ok m -> list_ok maxStored ps (stored m h) ->
  (exists v, In v (stored m h) /\ meaning (vaddr v) = meaning p /\ t <= timestamp v) -> Forall (fun o => t <= time_of o <= t + 1800) os ->
  exists v, In v (stored (run maxStored os m) h) /\ meaning (vaddr v) = meaning p /\ t <= timestamp v.
Proof.
  induction os as [|o os IH]; intros m N I F K L S T; [assumption|]. inversion F as [|? ? F1 F2]; subst. inversion T as [|? ? T1 T2]; subst. cbn.
  assert (Io : incl (peers_of [o]) ps) by (intros x Hx; apply I; unfold peers_of in *; cbn [flat_map] in *; rewrite app_nil_r in Hx; apply in_or_app; now left).
  apply IH; try assumption.
  - intros x Hx. apply I. unfold peers_of. cbn [flat_map]. apply in_or_app. now right.
  - destruct o; cbn; [now apply store_keys|now apply refresh_keys].
  - now apply op_list.
  - apply (op_stays maxStored ps); try assumption; lia.
Qed.

Lemma pickValues_ok maxcount v6 l : forall count, 0 <= count -> 0 <= maxcount < 2 ^ 32 ->
  let wanted := map vaddr (filter (fun v => eqb (ipv6 (vaddr v)) v6) l) in
  pickValues maxcount count v6 l = firstn (Z.to_nat (maxcount - count)) wanted.
Proof.
  induction l as [|v l IH]; intros count C M; [cbn; now rewrite firstn_nil|]. cbn [pickValues filter]. destruct (Z.ltb_spec count maxcount) as [Lt|Ge]; cbn [andb].
  - destruct (eqb (ipv6 (vaddr v)) v6); [|now apply IH]. cbn [map]. unfold u32. rewrite Z.mod_small by lia. rewrite IH by lia. replace (Z.to_nat (maxcount - count)) with (S (Z.to_nat (maxcount - (count + 1)))) by lia. reflexivity.
  - rewrite IH by lia. replace (Z.to_nat (maxcount - count)) with 0%nat by lia. reflexivity.
Qed.
