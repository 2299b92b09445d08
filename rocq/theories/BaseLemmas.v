(** Facts about the shared vocabulary. *)
From Verif Require Import Base.

Lemma is_byteb_spec b : is_byteb b = true <-> is_byte b.
Proof. unfold is_byteb, is_byte; rewrite andb_true_iff, Z.leb_le, Z.ltb_lt; tauto. Qed.

Lemma bytes_okb_spec l : bytes_okb l = true <-> bytes_ok l.
Proof.
  unfold bytes_okb, bytes_ok. rewrite forallb_forall, Forall_forall.
  split; intros H x Hx; apply is_byteb_spec, H, Hx.
Qed.

Lemma bytes_ok_app a b : bytes_ok (a ++ b) <-> bytes_ok a /\ bytes_ok b.
Proof. apply Forall_app. Qed.

Lemma bytes_ok_cons a b : bytes_ok (a :: b) <-> is_byte a /\ bytes_ok b.
Proof. unfold bytes_ok; rewrite Forall_cons_iff; tauto. Qed.

Lemma u8_byte x : is_byte (u8 x).
Proof. unfold is_byte, u8; lia. Qed.

Lemma u8_id x : is_byte x -> u8 x = x.
Proof. unfold is_byte, u8; intros; apply Z.mod_small; lia. Qed.

Lemma zlen_nonneg {A} (l : list A) : 0 <= zlen l.
Proof. unfold zlen; lia. Qed.

Lemma zlen_app {A} (a b : list A) : zlen (a ++ b) = zlen a + zlen b.
Proof. unfold zlen; rewrite app_length; lia. Qed.

Lemma zlen_cons {A} (a : A) b : zlen (a :: b) = 1 + zlen b.
Proof. unfold zlen; simpl length; lia. Qed.

Lemma zlen_nil {A} : zlen (@nil A) = 0.
Proof. reflexivity. Qed.

(** ** Big-endian numbers *)

Lemma be_length n v : length (be n v) = n.
Proof. revert v; induction n as [|n IH]; intros v; simpl; [reflexivity|rewrite app_length, IH; simpl; lia]. Qed.

Lemma be_bytes n v : bytes_ok (be n v).
Proof.
  revert v; induction n as [|n IH]; intros v; simpl; [constructor|].
  apply bytes_ok_app; split; [apply IH|]. constructor; [unfold is_byte; lia|constructor].
Qed.

Lemma unbe_acc l : forall acc,
  fold_left (fun acc b => acc * 256 + b) l acc = acc * 256 ^ zlen l + unbe l.
Proof.
  unfold unbe. induction l as [|b l IH]; intros acc; simpl fold_left.
  - rewrite zlen_nil. change (256 ^ 0) with 1. lia.
  - rewrite (IH (acc * 256 + b)).
    pose proof (IH (0 * 256 + b)) as E. simpl in E. rewrite E.
    rewrite zlen_cons, Z.pow_add_r; [|lia|apply zlen_nonneg].
    change (256 ^ 1) with 256. ring.
Qed.

Lemma unbe_app a b : unbe (a ++ b) = unbe a * 256 ^ zlen b + unbe b.
Proof. unfold unbe at 1. rewrite fold_left_app. rewrite unbe_acc. reflexivity. Qed.

Lemma unbe_one b : unbe [b] = b.
Proof. unfold unbe; simpl; lia. Qed.

Lemma unbe_be n v : 0 <= v < 256 ^ Z.of_nat n -> unbe (be n v) = v.
Proof.
  revert v; induction n as [|n IH]; intros v H.
  - change (256 ^ Z.of_nat 0) with 1 in H. simpl. unfold unbe; simpl; lia.
  - simpl be. rewrite unbe_app, unbe_one.
    rewrite Nat2Z.inj_succ, Z.pow_succ_r in H by lia.
    rewrite IH.
    + unfold zlen; simpl length. change (256 ^ Z.of_nat 1) with 256. lia.
    + split; [apply Z.div_pos; lia|]. apply Z.div_lt_upper_bound; lia.
Qed.

Lemma unbe_range l : bytes_ok l -> 0 <= unbe l < 256 ^ zlen l.
Proof.
  induction l as [|b l IH] using rev_ind; intros H.
  - unfold unbe; simpl. change (256 ^ zlen []) with 1. lia.
  - apply bytes_ok_app in H as [H1 H2]. specialize (IH H1).
    rewrite unbe_app, unbe_one, zlen_app.
    rewrite Z.pow_add_r by (unfold zlen; lia).
    change (zlen [b]) with 1. change (256 ^ 1) with 256.
    inversion H2 as [|? ? Hb]; subst. unfold is_byte in Hb. nia.
Qed.

Lemma be_unbe l : bytes_ok l -> be (length l) (unbe l) = l.
Proof.
  induction l as [|b l IH] using rev_ind; intros H; [reflexivity|].
  apply bytes_ok_app in H as [H1 H2].
  inversion H2 as [|? ? Hb]; subst. unfold is_byte in Hb.
  rewrite app_length, Nat.add_1_r. simpl be.
  rewrite unbe_app, unbe_one. change (zlen [b]) with 1. change (256 ^ 1) with 256.
  replace ((unbe l * 256 + b) / 256) with (unbe l) by lia.
  replace ((unbe l * 256 + b) mod 256) with b by lia.
  rewrite IH by assumption. reflexivity.
Qed.

Lemma be_inj n a b : 0 <= a < 256 ^ Z.of_nat n -> 0 <= b < 256 ^ Z.of_nat n ->
  be n a = be n b -> a = b.
Proof. intros Ha Hb H. rewrite <- (unbe_be n a), <- (unbe_be n b), H by assumption. reflexivity. Qed.

(** ** Little-endian numbers *)

Lemma le_length n v : length (le n v) = n.
Proof. revert v; induction n as [|n IH]; intros v; simpl; [reflexivity|now rewrite IH]. Qed.

Lemma le_bytes n v : bytes_ok (le n v).
Proof.
  revert v; induction n as [|n IH]; intros v; simpl; constructor;
    [unfold is_byte; lia|apply IH].
Qed.

Lemma unle_le n v : 0 <= v < 256 ^ Z.of_nat n -> unle (le n v) = v.
Proof.
  revert v; induction n as [|n IH]; intros v H.
  - change (256 ^ Z.of_nat 0) with 1 in H. simpl. lia.
  - simpl. rewrite Nat2Z.inj_succ, Z.pow_succ_r in H by lia.
    rewrite IH; [lia|]. split; [apply Z.div_pos; lia|]. apply Z.div_lt_upper_bound; lia.
Qed.

Lemma unle_range l : bytes_ok l -> 0 <= unle l < 256 ^ zlen l.
Proof.
  induction l as [|b l IH]; intros H.
  - change (256 ^ zlen []) with 1. simpl; lia.
  - apply bytes_ok_cons in H as [Hb H]. specialize (IH H). unfold is_byte in Hb.
    rewrite zlen_cons, Z.pow_add_r by (unfold zlen; lia).
    change (256 ^ 1) with 256. simpl. nia.
Qed.

Lemma le_unle l : bytes_ok l -> le (length l) (unle l) = l.
Proof.
  induction l as [|b l IH]; intros H; [reflexivity|].
  apply bytes_ok_cons in H as [Hb H]. unfold is_byte in Hb.
  simpl. pose proof (unle_range l H).
  replace ((b + 256 * unle l) mod 256) with b by lia.
  replace ((b + 256 * unle l) / 256) with (unle l) by lia.
  now rewrite IH.
Qed.

(** ** List update *)

Lemma upd_length {A} i (x : A) l : length (upd i x l) = length l.
Proof. revert i; induction l as [|a l IH]; intros [|i]; simpl; auto. Qed.

Lemma nth_upd_same {A} i (x : A) l d : (i < length l)%nat -> nth i (upd i x l) d = x.
Proof. revert i; induction l as [|a l IH]; intros [|i] H; simpl in *; try lia; [reflexivity|apply IH; lia]. Qed.

Lemma nth_upd_other {A} i j (x : A) l d : i <> j -> nth i (upd j x l) d = nth i l d.
Proof. revert i j; induction l as [|a l IH]; intros [|i] [|j] H; simpl in *; try congruence; auto. Qed.

Lemma nth_upd {A} i j (x : A) l d :
  nth i (upd j x l) d = if (Nat.eqb i j && Nat.ltb j (length l))%bool then x else nth i l d.
Proof.
  destruct (Nat.eqb_spec i j) as [->|H]; simpl; [|now apply nth_upd_other].
  destruct (Nat.ltb_spec j (length l)); [now apply nth_upd_same|].
  rewrite !nth_overflow; rewrite ?upd_length; auto.
Qed.

Lemma nth_error_upd {A} i j (x : A) l :
  nth_error (upd j x l) i =
  if (Nat.eqb i j && Nat.ltb j (length l))%bool then Some x else nth_error l i.
Proof.
  revert i j; induction l as [|a l IH]; intros [|i] [|j]; simpl; try reflexivity.
  - now rewrite andb_false_r.
  - rewrite IH. reflexivity.
Qed.

Lemma upd_upd_same {A} i (x y : A) l : upd i x (upd i y l) = upd i x l.
Proof. revert i; induction l as [|a l IH]; intros [|i]; simpl; congruence. Qed.

Lemma upd_nth {A} i (l : list A) d : upd i (nth i l d) l = l.
Proof. revert i; induction l as [|a l IH]; intros [|i]; simpl; congruence. Qed.

Lemma Forall_upd {A} (P : A -> Prop) i x l : Forall P l -> P x -> Forall P (upd i x l).
Proof.
  intros H Hx; revert i; induction H as [|a l Ha H IH]; intros [|i]; simpl; constructor; auto.
Qed.

Lemma upd_app_l {A} i (x : A) a b : (i < length a)%nat -> upd i x (a ++ b) = upd i x a ++ b.
Proof. revert i; induction a as [|h a IH]; intros [|i] H; simpl in *; try lia; [reflexivity|rewrite IH; [reflexivity|lia]]. Qed.

Lemma upd_app_r {A} i (x : A) a b : upd (length a + i) x (a ++ b) = a ++ upd i x b.
Proof. induction a as [|h a IH]; simpl; [reflexivity|now rewrite IH]. Qed.

Lemma list_eqb_spec a b : list_eqb a b = true <-> a = b.
Proof.
  revert b; induction a as [|x a IH]; intros [|y b]; simpl; try (split; congruence).
  rewrite andb_true_iff, Z.eqb_eq, IH. split; [intros [-> ->]; reflexivity|intros H; inversion H; auto].
Qed.

Lemma list_eqb_refl a : list_eqb a a = true.
Proof. now apply list_eqb_spec. Qed.

(** ** Slices *)

Lemma slice_length {A} off n (l : list A) : (off + n <= length l)%nat -> length (slice off n l) = n.
Proof. intros H; unfold slice; rewrite firstn_length, skipn_length; lia. Qed.

Lemma firstn_app_exact {A} (a b : list A) : firstn (length a) (a ++ b) = a.
Proof. rewrite firstn_app, Nat.sub_diag, firstn_all; simpl; apply app_nil_r. Qed.

Lemma skipn_app_exact {A} (a b : list A) : skipn (length a) (a ++ b) = b.
Proof. rewrite skipn_app, Nat.sub_diag, skipn_all; reflexivity. Qed.

Lemma firstn_app_len {A} n (a b : list A) : n = length a -> firstn n (a ++ b) = a.
Proof. intros ->; apply firstn_app_exact. Qed.

Lemma skipn_app_len {A} n (a b : list A) : n = length a -> skipn n (a ++ b) = b.
Proof. intros ->; apply skipn_app_exact. Qed.

Lemma slice_at {A} off n (pre d rest : list A) : length pre = off -> length d = n ->
  slice off n (pre ++ d ++ rest) = d.
Proof. intros <- <-. unfold slice. now rewrite skipn_app_exact, firstn_app_exact. Qed.

Lemma nth_slice {A} off n i (l : list A) d : (i < n)%nat -> nth i (slice off n l) d = nth (off + i) l d.
Proof.
  intros H. unfold slice. revert l i n H. induction off as [|off IH]; intros l i n H.
  - simpl skipn. revert i n H; induction l as [|a l IHl]; intros i n H.
    + rewrite firstn_nil. destruct i; reflexivity.
    + destruct n; [lia|]. destruct i; simpl; [reflexivity|apply IHl; lia].
  - destruct l as [|a l]; simpl; [rewrite firstn_nil; destruct i; reflexivity|]. apply IH; lia.
Qed.

Lemma nth_ext_Z (a b : list Z) :
  length a = length b -> (forall i, (i < length a)%nat -> nth i a 0 = nth i b 0) -> a = b.
Proof. intros Hl H. apply (nth_ext a b 0 0 Hl H). Qed.

(** ** Finite sweeps over a byte *)

Definition sweep (n : nat) (f : Z -> bool) : bool := forallb (fun i => f (Z.of_nat i)) (seq 0 n).

Lemma sweep_spec n f : sweep n f = true -> forall b, 0 <= b < Z.of_nat n -> f b = true.
Proof.
  unfold sweep; rewrite forallb_forall; intros H b Hb.
  replace b with (Z.of_nat (Z.to_nat b)) by lia. apply H, in_seq; lia.
Qed.

Lemma byte_sweep f : sweep 256 f = true -> forall b, is_byte b -> f b = true.
Proof. intros H b Hb. apply (sweep_spec 256 f H). unfold is_byte in Hb; lia. Qed.

(** Case split on an innermost conditional of the goal. *)
Ltac dif := match goal with
  | |- context [if ?b then _ else _] =>
    lazymatch b with context [if _ then _ else _] => fail | _ => destruct b eqn:? end
  end.
Ltac difs := repeat (dif; try (exfalso; lia)).

Lemma Forall2_length {A B} (R : A -> B -> Prop) a b : Forall2 R a b -> length a = length b.
Proof. induction 1; simpl; congruence. Qed.

Lemma Forall2_firstn {A B} (R : A -> B -> Prop) n a b : Forall2 R a b -> Forall2 R (firstn n a) (firstn n b).
Proof. intros H; revert n; induction H; intros [|n]; simpl; constructor; auto. Qed.

Lemma Forall2_skipn {A B} (R : A -> B -> Prop) n a b : Forall2 R a b -> Forall2 R (skipn n a) (skipn n b).
Proof. intros H; revert n; induction H; intros [|n]; simpl; try constructor; auto. Qed.

Lemma cons_eq {A} (x y : A) a b : x = y -> a = b -> x :: a = y :: b.
Proof. congruence. Qed.
Ltac leq := repeat (apply cons_eq; [try lia|]); try reflexivity.

Lemma pair_eq {A B} (a c : A) (b d : B) : a = c -> b = d -> (a, b) = (c, d).
Proof. intros -> ->; reflexivity. Qed.
(** Equality of nested tuples below constructors. *)
Ltac teq := repeat match goal with
  | |- (_, _) = (_, _) => apply pair_eq
  | |- Some _ = Some _ => apply f_equal
  | |- Ok _ = Ok _ => apply f_equal
  end; try reflexivity; try lia.

Lemma upd_oob {A} i (x : A) l : (length l <= i)%nat -> upd i x l = l.
Proof.
  revert i. induction l as [|a l IH]; intros i L; [destruct i; reflexivity|].
  destruct i as [|i]; [simpl in L; lia|]. cbn [upd]. f_equal. apply IH. simpl in L. lia.
Qed.
