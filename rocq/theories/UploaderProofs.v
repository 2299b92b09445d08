(** Proofs about the uploader. *)
From Verif Require Import BaseLemmas SubSeq UploaderModel UploaderSpec.

(** The loop of sendRequests without indices: requests sent, requests kept. *)
Fixpoint serve (est : nat -> bool) (rest : list upload) (avail : Z)
  : list upload * list upload * Z :=
  match rest with
  | [] => ([], [], avail)
  | r :: rest' =>
    let len := b_length (up_block r) in
    if est (up_peer r) then
      if len <=? avail then
        let '(s, k, a) := serve est rest' (avail - len) in (r :: s, k, a)
      else
        let '(s, k, a) := serve est rest' avail in (s, r :: k, a)
    else serve est rest' avail
  end.

Fixpoint lens (l : list upload) : Z :=
  match l with [] => 0 | r :: l' => b_length (up_block r) + lens l' end.

Lemma lens_app a b : lens (a ++ b) = lens a + lens b.
Proof. induction a; cbn [lens app]; lia. Qed.

(** Every answer carries what loadBlock produced for its block. *)
Definition answers_of (load : block -> option (list Z)) (out : list answer) : Prop :=
  Forall (fun a => forall d, load (up_block (a_up a)) = Some d -> a_data a = d) out.

Lemma sendLoop_serve est load : forall rest kept junk i wanted avail uploaded buffer sent s k a,
  Forall (fun r => 0 <= b_length (up_block r)) rest ->
  (length (kept ++ junk) = i)%nat ->
  serve est rest avail = (s, k, a) -> 0 <= wanted ->
  exists vec wanted' uploaded' buffer' out,
    sendLoop est load (length rest) i ((kept ++ junk) ++ rest) (length kept) wanted avail uploaded buffer sent
    = (vec, length (kept ++ k), wanted', a, uploaded', buffer', sent ++ out) /\
    firstn (length (kept ++ k)) vec = kept ++ k /\
    wanted' = (if match k with [] => true | _ => false end then wanted else u32 (wanted + lens k)) /\
    map a_up out = s /\ answers_of load out.
Proof.
  induction rest as [|r rest IH]; intros kept junk i wanted avail uploaded buffer sent s k a FL Hi H Hw.
  - cbn [serve] in H. inversion H; subst s k a. cbn [length sendLoop]. rewrite !app_nil_r.
    exists (kept ++ junk), wanted, uploaded, buffer, []. rewrite app_nil_r.
    refine (conj eq_refl (conj _ (conj eq_refl (conj eq_refl (Forall_nil _))))).
    apply firstn_app_exact.
  - cbn [serve] in H. cbn [length sendLoop]. inversion FL as [|? ? HL FL']; subst.
    rewrite nth_error_app2 by lia. rewrite Nat.sub_diag. cbn [nth_error].
    destruct (est (up_peer r)) eqn:E.
    + destruct (b_length (up_block r) <=? avail) eqn:A.
      * destruct (serve est rest (avail - _)) as [[s0 k0] a0] eqn:Sv. inversion H; subst s k a. clear H.
        set (buf' := loadBlock load (up_block r) buffer).
        destruct (IH kept (junk ++ [r]) (Datatypes.S (length (kept ++ junk))) wanted
                    (avail - b_length (up_block r)) (u64 (uploaded + b_length (up_block r)))
                    buf' (sent ++ [MkAns r buf']) s0 k0 a0 FL') as (vec & w & up & bf & out & X1 & X2 & X3 & X4 & X5).
        { rewrite !app_length. cbn. lia. }
        { exact Sv. }
        { exact Hw. }
        rewrite !app_assoc in X1. rewrite <- (app_assoc (kept ++ junk) [r] rest) in X1. cbn [app] in X1.
        rewrite X1. exists vec, w, up, bf, (MkAns r buf' :: out).
        rewrite <- app_assoc. cbn [app].
        refine (conj eq_refl (conj X2 (conj X3 (conj _ _)))).
        -- cbn [map a_up]. f_equal. exact X4.
        -- constructor; [|exact X5]. cbn [a_up a_data]. intros d Hd. unfold buf', loadBlock. rewrite Hd. reflexivity.
      * destruct (serve est rest avail) as [[s0 k0] a0] eqn:Sv. inversion H; subst s k a. clear H.
        assert (V : (if (length kept <? length (kept ++ junk))%nat
                     then upd (length kept) r ((kept ++ junk) ++ r :: rest)
                     else (kept ++ junk) ++ r :: rest)
                    = ((kept ++ [r]) ++ tl (junk ++ [r])) ++ rest).
        { destruct junk as [|j junk].
          - rewrite app_nil_r. rewrite Nat.ltb_irrefl. cbn [app tl]. rewrite app_nil_r, <- app_assoc. reflexivity.
          - rewrite app_length. cbn [length].
            assert ((length kept <? length kept + Datatypes.S (length junk))%nat = true) as -> by (apply Nat.ltb_lt; lia).
            rewrite <- !app_assoc. cbn [app tl].
            assert (U : forall (l : list upload) x y t, upd (length l) x (l ++ y :: t) = l ++ x :: t).
            { clear. induction l as [|z l IHl]; intros; cbn; [reflexivity|]. f_equal. apply IHl. }
            rewrite U. rewrite <- app_assoc. reflexivity. }
        rewrite V.
        destruct (IH (kept ++ [r]) (tl (junk ++ [r])) (Datatypes.S (length (kept ++ junk)))
                    (u32 (wanted + b_length (up_block r))) avail uploaded buffer sent s0 k0 a0 FL')
          as (vec & w & up & bf & out & X1 & X2 & X3 & X4 & X5).
        { rewrite !app_length. destruct junk; cbn; rewrite ?app_length; cbn; lia. }
        { exact Sv. }
        { unfold u32. apply Z.mod_pos_bound. lia. }
        replace (length (kept ++ [r])) with (Datatypes.S (length kept)) in X1 by (rewrite app_length; cbn; lia).
        rewrite X1. exists vec, w, up, bf, out.
        rewrite <- (app_assoc kept [r] k0) in *. cbn [app] in *.
        refine (conj eq_refl (conj X2 (conj _ (conj X4 X5)))).
        rewrite X3. cbn [lens]. destruct k0 as [|k1 k2].
        -- cbn [lens]. f_equal. lia.
        -- unfold u32. rewrite Zplus_mod_idemp_l. f_equal. lia.
    + destruct (IH kept (junk ++ [r]) (Datatypes.S (length (kept ++ junk))) wanted avail uploaded
                    buffer sent s k a FL') as (vec & w & up & bf & out & X1 & X2 & X3 & X4 & X5).
      { rewrite !app_length. cbn. lia. }
      { exact H. }
      { exact Hw. }
      rewrite !app_assoc in X1. rewrite <- (app_assoc (kept ++ junk) [r] rest) in X1. cbn [app] in X1.
      rewrite X1. exists vec, w, up, bf, out. auto.
Qed.

Lemma serve_ok est rest : forall avail s k a,
  serve est rest avail = (s, k, a) -> 0 <= avail ->
  Forall (fun r => 0 <= b_length (up_block r)) rest ->
  subseq s rest /\ subseq k rest /\
  (forall x, (count_occ upload_eq_dec s x + count_occ upload_eq_dec k x
              <= count_occ upload_eq_dec rest x)%nat) /\
  Forall (fun r => est (up_peer r) = true) s /\ Forall (fun r => est (up_peer r) = true) k /\
  0 <= a /\ a = avail - lens s /\
  Forall (fun r => a < b_length (up_block r)) k.
Proof.
  induction rest as [|r rest IH]; intros avail s k a H A F; cbn [serve] in H.
  - inversion H; subst. repeat split; try constructor; cbn [lens]; lia.
  - inversion F as [|? ? Fr Fs]; subst.
    destruct (est (up_peer r)) eqn:E.
    + destruct (b_length (up_block r) <=? avail) eqn:L.
      * destruct (serve est rest _) as [[s0 k0] a0] eqn:Sv. inversion H; subst. clear H.
        apply IH in Sv; [|lia|assumption].
        destruct Sv as (X1 & X2 & X3 & X4 & X5 & X6 & X7 & X8).
        refine (conj _ (conj _ (conj _ (conj _ (conj X5 (conj X6 (conj _ X8))))))).
        -- apply ss_take, X1.
        -- apply ss_skip, X2.
        -- intros x. cbn [count_occ]. specialize (X3 x). destruct (upload_eq_dec r x); lia.
        -- constructor; assumption.
        -- cbn [lens]. lia.
      * destruct (serve est rest _) as [[s0 k0] a0] eqn:Sv. inversion H; subst. clear H.
        apply IH in Sv; [|lia|assumption].
        destruct Sv as (X1 & X2 & X3 & X4 & X5 & X6 & X7 & X8).
        refine (conj _ (conj _ (conj _ (conj X4 (conj _ (conj X6 (conj X7 _))))))).
        -- apply ss_skip, X1.
        -- apply ss_take, X2.
        -- intros x. cbn [count_occ]. specialize (X3 x). destruct (upload_eq_dec r x); lia.
        -- constructor; assumption.
        -- constructor; [|assumption].
           assert (0 <= lens s).
           { assert (FF : Forall (fun r => 0 <= b_length (up_block r)) s) by (eapply ss_Forall; eauto).
             clear - FF. induction FF; cbn [lens]; lia. }
           lia.
    + apply IH in H; [|lia|assumption].
      destruct H as (X1 & X2 & X3 & X4).
      refine (conj _ (conj _ (conj _ X4))).
      * apply ss_skip, X1.
      * apply ss_skip, X2.
      * intros x. cbn [count_occ]. specialize (X3 x). destruct (upload_eq_dec r x); lia.
Qed.

(** With blocks of one size the sent requests come before the kept ones. *)
Lemma serve_order est n rest : forall avail s k a,
  serve est rest avail = (s, k, a) -> Forall (fun r => b_length (up_block r) = n) rest -> 0 <= n ->
  subseq (s ++ k) rest /\ (avail < n -> s = []).
Proof.
  induction rest as [|r rest IH]; intros avail s k a H F N; cbn [serve] in H.
  - inversion H; subst. split; [constructor|reflexivity].
  - inversion F as [|? ? Fr Fs]; subst.
    destruct (est (up_peer r)) eqn:E.
    + destruct (b_length (up_block r) <=? avail) eqn:L.
      * destruct (serve est rest _) as [[s0 k0] a0] eqn:Sv. inversion H; subst. clear H.
        apply IH in Sv; [|assumption|assumption]. destruct Sv as (X1 & _). split; [apply ss_take, X1|lia].
      * destruct (serve est rest _) as [[s0 k0] a0] eqn:Sv. inversion H; subst. clear H.
        apply IH in Sv; [|assumption|assumption]. destruct Sv as (X1 & X2).
        assert (s = []) as -> by (apply X2; lia). split; [apply ss_take, X1|reflexivity].
    + apply IH in H; [|assumption|assumption]. destruct H as (X1 & X2). split; [apply ss_skip, X1|exact X2].
Qed.

Definition u_ok (u : uploader) : Prop :=
  0 <= u_avail u < 4294967296 /\ Forall (fun r => 0 <= b_length (up_block r) < 4294967296) (u_pending u).

Lemma requestBytes_ok amount reply u : u_ok u -> 0 <= amount ->
  (forall n, 0 <= n -> 0 <= reply n <= n) ->
  let u' := requestBytes amount reply u in
  u_ok u' /\ u_pending u' = u_pending u /\ u_posts u' = u_posts u /\ u_uploaded u' = u_uploaded u /\
  u_avail u' - u_avail u <= u_granted u' - u_granted u /\ u_requested u' = u_requested u.
Proof.
  intros (A & P) Ha R u'. subst u'. unfold requestBytes.
  destruct ((amount <=? u_avail u) || u_asking u) eqn:E.
  - repeat split; try assumption; lia.
  - specialize (R (amount - u_avail u) ltac:(lia)).
    destruct (reply (amount - u_avail u) =? 0) eqn:Z0; cbn; unfold u_ok; cbn.
    + repeat split; try assumption; lia.
    + unfold u32. assert (B := Z.mod_pos_bound (u_avail u + reply (amount - u_avail u)) 4294967296 ltac:(lia)).
      assert ((u_avail u + reply (amount - u_avail u)) mod 4294967296 <= u_avail u + reply (amount - u_avail u))
        by (apply Z.mod_le; lia).
      repeat split; try assumption; try lia; try tauto.
Qed.

Lemma lens_nonneg l : Forall (fun r => 0 <= b_length (up_block r) < 4294967296) l -> 0 <= lens l.
Proof. induction 1; cbn [lens]; lia. Qed.

(** sendRequests in one lemma. *)
Lemma send_ok est load reply u u' out : u_ok u -> (forall n, 0 <= n -> 0 <= reply n <= n) ->
  sendRequests est load reply u = (u', out) ->
  (u_posts u = 0%nat /\ u' = u /\ out = []) \/
  exists posts s k a, u_posts u = Datatypes.S posts /\ serve est (u_pending u) (u_avail u) = (s, k, a) /\
    u_pending u' = k /\ map a_up out = s /\ answers_of load out /\ u_posts u' = posts /\
    u_ok u' /\ lens s + (u_avail u' - u_avail u) <= u_granted u' - u_granted u /\
    u_requested u' = u_requested u /\
    (k = [] \/ 4294967296 <= lens k \/ u_asking u' = true \/
       (reply (lens k - a) <> 0 /\ u_asking u' = false /\ u_avail u' = u32 (a + reply (lens k - a)))).
Proof.
  intros (A & P) R H. unfold sendRequests in H. destruct (u_posts u) as [|posts] eqn:E.
  { inversion H; subst. left. auto. }
  right. destruct (serve est (u_pending u) (u_avail u)) as [[s k] a] eqn:Sv.
  pose proof Sv as Sv0. apply serve_ok in Sv0; [|lia|].
  2:{ eapply Forall_impl; [|exact P]. cbn. intros; lia. }
  destruct Sv0 as (S1 & S2 & S3 & S4 & S5 & S6 & S7 & S8).
  destruct (sendLoop_serve est load (u_pending u) [] [] 0%nat 0 (u_avail u) (u_uploaded u)
              (u_buffer u) [] s k a) as (vec & w & up & bf & out0 & X1 & X2 & X3 & X4 & X5).
  { eapply Forall_impl; [|exact P]. cbn. intros; lia. }
  { reflexivity. }
  { exact Sv. }
  { lia. }
  cbn [app length] in X1, X2. rewrite X1 in H. cbn [app] in H. rewrite X2 in H.
  exists posts, s, k, a. split; [reflexivity|]. split; [reflexivity|].
  set (u1 := MkU k bf (u_asking u) a up posts (u_granted u) (u_requested u)) in *.
  assert (Fk : Forall (fun r => 0 <= b_length (up_block r) < 4294967296) k) by (eapply ss_Forall; eauto).
  assert (Fs : Forall (fun r => 0 <= b_length (up_block r) < 4294967296) s) by (eapply ss_Forall; eauto).
  pose proof (lens_nonneg s Fs) as Ls. pose proof (lens_nonneg k Fk) as Lk.
  assert (O1 : u_ok u1) by (split; cbn; [lia|exact Fk]).
  assert (Hw : 0 <= w) by (rewrite X3; destruct k; [lia|apply Z.mod_pos_bound; lia]).
  destruct (requestBytes_ok w reply u1 O1 Hw R) as (Y1 & Y2 & Y3 & Y4 & Y5 & Y6).
  inversion H; subst u' out. clear H.
  destruct (0 <? w) eqn:W.
  - refine (conj Y2 (conj X4 (conj X5 (conj Y3 (conj Y1 (conj _ (conj Y6 _))))))).
    + cbn [u1 u_avail u_granted] in Y5. lia.
    + destruct (Z.le_gt_cases 4294967296 (lens k)) as [G|G]; [right; left; exact G|].
      destruct k as [|k1 k2]; [left; reflexivity|]. right. right.
      assert (w = lens (k1 :: k2)) as Ew.
      { rewrite X3. unfold u32. rewrite Z.mod_small; lia. }
      unfold requestBytes. rewrite Ew. cbn [u1 u_avail u_asking].
      assert (a < lens (k1 :: k2)).
      { inversion S8; subst. inversion Fk; subst. cbn [lens]. pose proof (lens_nonneg k2 H4). lia. }
      assert (lens (k1 :: k2) <=? u_avail u - lens s = false) as EE by lia.
      cbn [lens] in EE |- *.
      rewrite S7 in *. cbn [lens] in *. rewrite EE. cbn [orb].
      destruct (u_asking u) eqn:As; [left; cbn; reflexivity|].
      destruct (reply _ =? 0) eqn:Rp; [left; reflexivity|right].
      cbn. split; [lia|]. split; [exact As || reflexivity|reflexivity].
  - refine (conj eq_refl (conj X4 (conj X5 (conj eq_refl (conj O1 (conj _ (conj eq_refl _))))))).
    + cbn [u1 u_avail u_granted]. lia.
    + destruct (Z.le_gt_cases 4294967296 (lens k)) as [G|G]; [right; left; exact G|].
      destruct k as [|k1 k2]; [left; reflexivity|]. exfalso.
      assert (w = lens (k1 :: k2)) as Ew.
      { rewrite X3. unfold u32. rewrite Z.mod_small; lia. }
      inversion S8; subst. inversion Fk; subst. cbn [lens] in *. pose proof (lens_nonneg k2 H4). lia.
Qed.
