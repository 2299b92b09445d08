From Verif Require Import Base BaseLemmas Rc4Model Rc4Spec.

Lemma land255 x : Z.land x 255 = x mod 256.
Proof. change 255 with (Z.ones 8). now rewrite Z.land_ones by lia. Qed.

(** Array state and function state agree. *)
Definition rep (s : list Z) (S : Z -> Z) : Prop :=
  length s = 256%nat /\ forall k, 0 <= k < 256 -> at_ s k = S k.

Lemma rep_swap s S x y : rep s S -> 0 <= x < 256 -> 0 <= y < 256 -> rep (swapAt s x y) (exch S x y).
Proof.
  intros [L H] Hx Hy. split; [unfold swapAt; now rewrite !upd_length|].
  intros k Hk. unfold swapAt, exch, at_. rewrite nth_upd, nth_upd, !upd_length, L.
  fold (at_ s x). fold (at_ s y). fold (at_ s k).
  rewrite !H by lia.
  destruct (Nat.eqb_spec (Z.to_nat k) (Z.to_nat y)) as [E|E]; cbn [andb].
  - assert (k = y) by lia. subst k.
    replace (Nat.ltb (Z.to_nat y) 256) with true by (symmetry; apply Nat.ltb_lt; lia).
    destruct (Z.eqb_spec y x) as [->|]; [reflexivity|]. rewrite Z.eqb_refl. reflexivity.
  - destruct (Z.eqb_spec k y); [subst; lia|].
    destruct (Nat.eqb_spec (Z.to_nat k) (Z.to_nat x)) as [E2|E2]; cbn [andb].
    + assert (k = x) by lia. subst k.
      replace (Nat.ltb (Z.to_nat x) 256) with true by (symmetry; apply Nat.ltb_lt; lia).
      rewrite Z.eqb_refl. reflexivity.
    + destruct (Z.eqb_spec k x); [subst; lia|reflexivity].
Qed.

Lemma ksaLoop_rep key n : forall i s S y,
  key <> [] -> rep s S -> (i + n <= 256)%nat -> 0 <= y < 256 ->
  rep (ksaLoop key (seq i n) s y (i mod length key)%nat)
      (fst (fold_left (ksa_step key) (seq i n) (S, y))).
Proof.
  induction n as [|n IH]; intros i s S y Hk Hr Hi Hy; [exact Hr|].
  cbn [seq ksaLoop fold_left].
  assert (Lk : (0 < length key)%nat) by (destruct key; [congruence|simpl; lia]).
  rewrite land255.
  replace (nth i s 0) with (S (Z.of_nat i)).
  2:{ destruct Hr as [_ Hr]. rewrite <- Hr by lia. unfold at_. now rewrite Nat2Z.id. }
  cbn [ksa_step]. set (y' := (y + S (Z.of_nat i) + nth (i mod length key)%nat key 0) mod 256).
  assert (Hy' : 0 <= y' < 256) by (subst y'; apply Z.mod_pos_bound; lia).
  replace (if Nat.eqb (Datatypes.S (i mod length key)) (length key) then O
           else Datatypes.S (i mod length key))
    with (Datatypes.S i mod length key)%nat.
  2:{ destruct (Nat.eqb_spec (Datatypes.S (i mod length key)) (length key)) as [E|E].
      - symmetry. pose proof (Nat.div_mod i (length key) ltac:(lia)) as D.
        replace (Datatypes.S i) with ((i / length key + 1) * length key)%nat by nia.
        now rewrite Nat.mod_mul by lia.
      - pose proof (Nat.div_mod i (length key) ltac:(lia)) as D.
        pose proof (Nat.mod_upper_bound i (length key) ltac:(lia)) as U.
        symmetry. apply Nat.mod_unique with (q := (i / length key)%nat); lia. }
  apply IH; [assumption| |lia|assumption].
  apply rep_swap; [assumption|lia|assumption].
Qed.

Lemma rc4_init_rep key : (1 <= length key <= 256)%nat ->
  exists st, rc4_init key = Ok st /\ xs st = 0 /\ ys st = 0 /\ rep (buf st) (ksa key).
Proof.
  intros Hk. unfold rc4_init. rewrite firstn_all2 by lia.
  destruct key as [|b key'] eqn:E; [simpl in Hk; lia|]. rewrite <- E in *.
  eexists. split; [reflexivity|]. cbn [xs ys buf]. split; [reflexivity|split; [reflexivity|]].
  unfold ksa.
  pose proof (ksaLoop_rep key 256 0 (map Z.of_nat (seq 0 256)) (fun k => k) 0) as R.
  rewrite Nat.mod_0_l in R by lia. apply R; [congruence| |lia|lia].
  split; [now rewrite map_length, seq_length|].
  intros k Hk2. unfold at_. change 0 with (Z.of_nat 0). rewrite map_nth, seq_nth by lia. lia.
Qed.

Lemma decodeLoop_spec out : forall st S, rep (buf st) S ->
  exists S' , decodeLoop st out = (fst (decodeLoop st out), xor_list out (prga (length out) S (xs st) (ys st)))
   /\ rep (buf (fst (decodeLoop st out))) S'.
Proof.
  induction out as [|b out IH]; intros st S R.
  - exists S. split; [reflexivity|exact R].
  - cbn [decodeLoop length prga xor_list]. unfold rc4_next. rewrite !land255.
    set (x := (xs st + 1) mod 256).
    assert (Hx : 0 <= x < 256) by (subst x; apply Z.mod_pos_bound; lia).
    replace (at_ (buf st) x) with (S x) by (symmetry; apply R; assumption).
    set (y := (ys st + S x) mod 256).
    assert (Hy : 0 <= y < 256) by (subst y; apply Z.mod_pos_bound; lia).
    pose proof (rep_swap _ _ x y R Hx Hy) as R'.
    rewrite !(proj2 R') by first [assumption|rewrite ?(proj2 R') by assumption; apply Z.mod_pos_bound; lia].
    specialize (IH {| xs := x; ys := y; buf := swapAt (buf st) x y |} (exch S x y) R').
    cbn [xs ys buf] in IH. destruct IH as (S' & IH & R'').
    destruct (decodeLoop {| xs := x; ys := y; buf := swapAt (buf st) x y |} out) as [st2 r].
    cbn [fst] in *. inversion IH as [Hr]. exists S'. split; [reflexivity|assumption].
Qed.

Lemma decodeLoop_app a b st :
  decodeLoop st (a ++ b) =
  let (st1, ra) := decodeLoop st a in
  let (st2, rb) := decodeLoop st1 b in (st2, ra ++ rb).
Proof.
  revert st; induction a as [|x a IH]; intros st.
  - cbn [app decodeLoop]. destruct (decodeLoop st b); reflexivity.
  - cbn [app decodeLoop]. destruct (rc4_next st) as [st1 k]. rewrite IH.
    destruct (decodeLoop st1 a) as [st2 ra]. destruct (decodeLoop st2 b) as [st3 rb]. reflexivity.
Qed.

Definition wf (st : rc4) : Prop := 0 <= xs st < 256 /\ 0 <= ys st < 256.

Lemma maskIdx_id st : wf st -> maskIdx st = st.
Proof.
  intros [Hx Hy]. unfold maskIdx. rewrite !land255, !Z.mod_small by lia. destruct st; reflexivity.
Qed.

Lemma wf_mask st : wf (maskIdx st).
Proof. unfold wf, maskIdx; cbn [xs ys]. rewrite !land255. split; apply Z.mod_pos_bound; lia. Qed.

Lemma decodeLoop_wf out : forall st, wf st -> wf (fst (decodeLoop st out)).
Proof.
  induction out as [|b out IH]; intros st H; [exact H|].
  cbn [decodeLoop]. destruct (rc4_next st) as [st1 k] eqn:E.
  assert (wf st1).
  { unfold rc4_next in E. injection E as <- _. unfold wf; cbn [xs ys]. rewrite !land255.
    split; apply Z.mod_pos_bound; lia. }
  specialize (IH st1 H0). destruct (decodeLoop st1 out); exact IH.
Qed.

Lemma rc4_decode_app a b st :
  rc4_decode st (a ++ b) =
  let (st1, ra) := rc4_decode st a in
  let (st2, rb) := rc4_decode st1 b in (st2, ra ++ rb).
Proof.
  unfold rc4_decode. rewrite decodeLoop_app.
  pose proof (decodeLoop_wf a (maskIdx st) (wf_mask st)) as W.
  destruct (decodeLoop (maskIdx st) a) as [st1 ra]. cbn [fst] in W. rewrite (maskIdx_id st1 W). reflexivity.
Qed.

Lemma decodeLoop_length out : forall st, length (snd (decodeLoop st out)) = length out.
Proof.
  induction out as [|b out IH]; intros st; [reflexivity|]. cbn [decodeLoop].
  destruct (rc4_next st) as [st1 k]. specialize (IH st1). destruct (decodeLoop st1 out). simpl in *. lia.
Qed.

(** Decoding the output from the same state gives the input, and the same next state. *)
Lemma decodeLoop_invol out : forall st st' r, decodeLoop st out = (st', r) -> decodeLoop st r = (st', out).
Proof.
  induction out as [|b out IH]; intros st st' r H.
  - injection H as <- <-. reflexivity.
  - cbn [decodeLoop] in H. destruct (rc4_next st) as [st1 k] eqn:E.
    destruct (decodeLoop st1 out) as [st2 r2] eqn:E2. injection H as <- <-.
    cbn [decodeLoop]. rewrite E. rewrite (IH _ _ _ E2).
    rewrite Z.lxor_assoc, Z.lxor_nilpotent, Z.lxor_0_r. reflexivity.
Qed.

Lemma rc4_invol st out st' r : rc4_encode st out = (st', r) -> rc4_decode st r = (st', out).
Proof. apply decodeLoop_invol. Qed.

Lemma skipLoop_decode n : forall st d, length d = n -> skipLoop n st = fst (decodeLoop st d).
Proof.
  induction n as [|n IH]; intros st d L; destruct d as [|b d]; try discriminate L; [reflexivity|].
  cbn [skipLoop decodeLoop]. unfold rc4_next.
  rewrite (IH _ d) by (simpl in L; lia).
  destruct (decodeLoop _ d). reflexivity.
Qed.

Lemma rc4_skip_decode st d : rc4_skip st (length d) = fst (rc4_decode st d).
Proof. apply skipLoop_decode. reflexivity. Qed.

(** Full behaviour: init, skip [n], then encode: the textbook keystream with its first
    [n] bytes dropped. *)
Lemma xor_list_app a b k : xor_list (a ++ b) k = xor_list a (firstn (length a) k) ++ xor_list b (skipn (length a) k)
  \/ (length k < length a)%nat.
Proof.
  revert k; induction a as [|x a IH]; intros k.
  - left. cbn [length firstn skipn app xor_list]. destruct k; reflexivity.
  - destruct k as [|y k]; [right; simpl; lia|].
    destruct (IH k) as [E|E]; [left|right; simpl; lia].
    cbn [app xor_list length firstn skipn]. now rewrite E.
Qed.

Lemma prga_length n : forall S i j, length (prga n S i j) = n.
Proof. induction n as [|n IH]; intros; [reflexivity|]. cbn [prga length]. now rewrite IH. Qed.

Lemma xor_list_length a : forall b, length b = length a -> length (xor_list a b) = length a.
Proof. induction a as [|x a IH]; intros [|y b] H; simpl in *; try lia. rewrite IH; lia. Qed.

Lemma rc4_stream key skip data st :
  (1 <= length key <= 256)%nat -> rc4_init key = Ok st ->
  snd (rc4_encode (rc4_skip st skip) data)
  = xor_list data (skipn skip (keystream key (skip + length data))).
Proof.
  intros Hk Hi. destruct (rc4_init_rep key Hk) as (st0 & E & X & Y & R).
  assert (st0 = st) by congruence. subst st0.
  pose proof (decodeLoop_spec (repeat 0 skip ++ data) st (ksa key) R) as (S' & D & _).
  assert (W : wf st) by (unfold wf; lia).
  rewrite decodeLoop_app in D.
  assert (RL : length (repeat 0 skip) = skip) by apply repeat_length.
  pose proof (rc4_skip_decode st (repeat 0 skip)) as SK. rewrite RL in SK.
  rewrite SK. unfold rc4_encode, rc4_decode. rewrite (maskIdx_id st W).
  pose proof (decodeLoop_wf (repeat 0 skip) st W) as W1.
  pose proof (decodeLoop_length (repeat 0 skip) st) as L1.
  destruct (decodeLoop st (repeat 0 skip)) as [st1 r1]. cbn [fst snd] in *.
  rewrite (maskIdx_id st1 W1).
  destruct (decodeLoop st1 data) as [st2 r2]. cbn [fst snd] in *.
  injection D as D. rewrite X, Y in D.
  rewrite app_length, RL in D. fold (keystream key (skip + length data)) in D.
  set (ks := keystream key (skip + length data)) in *.
  assert (KL : length ks = (skip + length data)%nat) by apply prga_length.
  destruct (xor_list_app (repeat 0 skip) data ks) as [E2|E2]; [|rewrite RL in E2; lia].
  rewrite E2, RL in D.
  assert (LL : length (xor_list (repeat 0 skip) (firstn skip ks)) = length r1).
  { rewrite xor_list_length; [lia|]. rewrite firstn_length, RL. lia. }
  apply (f_equal (skipn (length r1))) in D.
  rewrite skipn_app_exact in D. rewrite <- LL in D at 1. rewrite skipn_app_exact in D. exact D.
Qed.

Lemma rc4_long_key key : rc4_init key = rc4_init (firstn 256 key).
Proof. unfold rc4_init. rewrite firstn_firstn. reflexivity. Qed.
