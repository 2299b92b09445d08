(** C25 and C54: the uploader. *)
From Verif Require Import BaseLemmas SubSeq UploaderModel UploaderSpec UploaderProofs.

Lemma sent_lens out : sentBytes out = lens (map a_up out).
Proof. induction out; cbn [sentBytes map lens]; lia. Qed.

Lemma sentBytes_app a b : sentBytes (a ++ b) = sentBytes a + sentBytes b.
Proof. rewrite !sent_lens, map_app, lens_app. reflexivity. Qed.

Lemma filter_u_ok f u : u_ok u -> Forall (fun r => 0 <= b_length (up_block r) < 4294967296) (filter f (u_pending u)).
Proof. intros (_ & P). eapply ss_Forall; [apply ss_filter|exact P]. Qed.

Lemma step_ok c u u' out : u_ok u -> call_ok c -> step c u = (u', out) ->
  u_ok u' /\ sentBytes out + (u_avail u' - u_avail u) <= u_granted u' - u_granted u /\
  (forall x, (count_occ upload_eq_dec (map a_up out) x + count_occ upload_eq_dec (u_pending u') x
     <= count_occ upload_eq_dec (u_pending u) x + count_occ upload_eq_dec (asked [c]) x)%nat) /\
  (forall n, 0 <= n -> Forall (fun r => b_length (up_block r) = n) (u_pending u ++ asked [c]) ->
     subseq (map a_up out ++ u_pending u') (u_pending u ++ asked [c])).
Proof.
  intros O C H. destruct c; cbn [step] in H; cbn [asked].
  - (* Ask *)
    inversion H; subst u' out. clear H. destruct C as (C1 & C2).
    destruct (requestBytes_ok (b_length (up_block r)) reply u O ltac:(lia) C2) as (Y1 & Y2 & Y3 & Y4 & Y5 & Y6).
    unfold pieceRequest. cbn [u_pending u_avail u_granted map sentBytes app].
    rewrite Y2. refine (conj (conj _ _) (conj _ (conj _ _))).
    + apply Y1.
    + cbn. apply Forall_app. split; [apply O|]. constructor; [exact C1|constructor].
    + lia.
    + intros x. rewrite count_occ_app. cbn. lia.
    + intros. apply ss_refl.
  - (* Grant *)
    inversion H; subst u' out. clear H. cbn in C. destruct O as (A & P).
    unfold assignBandwidth. cbn [u_pending u_avail u_granted map sentBytes app].
    refine (conj (conj _ P) (conj _ (conj _ _))).
    + cbn. unfold u32. apply Z.mod_pos_bound. lia.
    + unfold u32. assert ((u_avail u + amount) mod 4294967296 <= u_avail u + amount) by (apply Z.mod_le; lia). lia.
    + intros x. cbn. lia.
    + intros. rewrite app_nil_r. apply ss_refl.
  - (* Run *)
    cbn in C. destruct (send_ok est load reply u u' out O C H)
      as [(E1 & E2 & E3)|(posts & s & k & a & E1 & E2 & E3 & E4 & E5 & E6 & E7 & E8 & E9 & _)].
    + subst. cbn [sentBytes map app]. refine (conj O (conj _ (conj _ _))); [lia|intros; cbn; lia|].
      intros. rewrite app_nil_r. apply ss_refl.
    + rewrite sent_lens, E4, E3. refine (conj E7 (conj E8 (conj _ _))).
      * intros x. destruct O as (A & P). apply serve_ok in E2; [|lia|].
        -- destruct E2 as (_ & _ & X & _). specialize (X x). cbn. lia.
        -- eapply Forall_impl; [|exact P]. cbn. intros; lia.
      * intros n N F. rewrite app_nil_r in *. apply (serve_order est n) in E2; [|exact F|exact N]. apply E2.
  - (* Cancel *)
    inversion H; subst u' out. cbn [u_pending u_avail u_granted map sentBytes app cancelRequests].
    refine (conj (conj (proj1 O) (filter_u_ok _ u O)) (conj _ (conj _ _))).
    + lia.
    + intros x. pose proof (ss_count upload_eq_dec _ _ x (ss_filter (fun r => negb (Nat.eqb (up_peer r) p)) (u_pending u))).
      cbn. lia.
    + intros. rewrite app_nil_r. apply ss_filter.
  - (* Refresh *)
    inversion H; subst u' out. cbn [u_pending u_avail u_granted map sentBytes app refreshRequest].
    refine (conj (conj (proj1 O) (filter_u_ok _ u O)) (conj _ (conj _ _))).
    + lia.
    + intros x. pose proof (ss_count upload_eq_dec _ _ x (ss_filter (fun r => est (up_peer r)) (u_pending u))).
      cbn. lia.
    + intros. rewrite app_nil_r. apply ss_filter.
  - (* Stop *)
    inversion H; subst u' out. destruct O as (A & P). cbn [u_pending u_avail u_granted map sentBytes app stop].
    refine (conj (conj _ (Forall_nil _)) (conj _ (conj _ _))).
    + cbn. lia.
    + lia.
    + intros x. cbn. lia.
    + intros. apply ss_none.
Qed.

Lemma asked_cons c cs : asked (c :: cs) = asked [c] ++ asked cs.
Proof. destruct c; reflexivity. Qed.

Lemma run_ok cs : forall u u' out, u_ok u -> Forall call_ok cs -> run cs u = (u', out) ->
  u_ok u' /\ sentBytes out + (u_avail u' - u_avail u) <= u_granted u' - u_granted u /\
  (forall x, (count_occ upload_eq_dec (map a_up out) x + count_occ upload_eq_dec (u_pending u') x
     <= count_occ upload_eq_dec (u_pending u) x + count_occ upload_eq_dec (asked cs) x)%nat) /\
  (forall n, 0 <= n -> Forall (fun r => b_length (up_block r) = n) (u_pending u ++ asked cs) ->
     subseq (map a_up out ++ u_pending u') (u_pending u ++ asked cs)).
Proof.
  induction cs as [|c cs IH]; intros u u' out O F H; cbn [run] in H.
  - inversion H; subst. cbn [sentBytes map app asked]. refine (conj O (conj _ (conj _ _))).
    + lia.
    + intros; cbn; lia.
    + intros. rewrite app_nil_r. apply ss_refl.
  - inversion F as [|? ? Fc Fs]; subst.
    destruct (step c u) as [u1 o1] eqn:St. destruct (run cs u1) as [u2 o2] eqn:R.
    inversion H; subst u' out. clear H.
    destruct (step_ok c u u1 o1 O Fc St) as (A1 & A2 & A3 & A4).
    destruct (IH u1 u2 o2 A1 Fs R) as (B1 & B2 & B3 & B4).
    refine (conj B1 (conj _ (conj _ _))).
    + rewrite sentBytes_app. lia.
    + intros x. rewrite map_app, (asked_cons c cs), !count_occ_app. specialize (A3 x). specialize (B3 x). lia.
    + intros n N G. rewrite (asked_cons c cs), app_assoc in G |- *. apply Forall_app in G. destruct G as (G1 & G2).
      specialize (A4 n N G1). rewrite map_app, <- app_assoc.
      assert (G3 : Forall (fun r => b_length (up_block r) = n) (u_pending u1 ++ asked cs)).
      { apply Forall_app. split; [|exact G2].
        pose proof (ss_Forall _ _ _ A4 G1) as X. apply Forall_app in X. apply X. }
      specialize (B4 n N G3).
      eapply ss_trans; [apply ss_app; [apply ss_refl|exact B4]|].
      rewrite app_assoc. apply ss_app; [exact A4|apply ss_refl].
Qed.

Lemma new_ok : u_ok newUploader.
Proof. split; [cbn; lia|constructor]. Qed.

(** The bytes sent never exceed the bytes granted. *)
Theorem C25_sent_at_most_granted : forall cs u out,
  Forall call_ok cs -> run cs newUploader = (u, out) -> sentBytes out <= u_granted u.
Proof.
  intros cs u out F R. destruct (run_ok cs _ _ _ new_ok F R) as ((A & _) & H & _).
  cbn [newUploader u_avail u_granted] in H. lia.
Qed.
Print Assumptions C25_sent_at_most_granted.

(** A request is answered at most once: as often as it is answered, or still
    pending, it was asked. *)
Theorem C25_answered_once : forall cs u out x,
  Forall call_ok cs -> run cs newUploader = (u, out) ->
  (count_occ upload_eq_dec (map a_up out) x + count_occ upload_eq_dec (u_pending u) x
   <= count_occ upload_eq_dec (asked cs) x)%nat.
Proof.
  intros cs u out x F R. destruct (run_ok cs _ _ _ new_ok F R) as (_ & _ & H & _).
  specialize (H x). cbn in H. lia.
Qed.
Print Assumptions C25_answered_once.

(** Requests of one size are answered in the order they came; what is pending
    came after what is answered. *)
Theorem C25_in_order_partial : forall cs u out n,
  Forall call_ok cs -> run cs newUploader = (u, out) -> 0 <= n ->
  Forall (fun r => b_length (up_block r) = n) (asked cs) ->
  subseq (map a_up out ++ u_pending u) (asked cs).
Proof.
  intros cs u out n F R N A. destruct (run_ok cs _ _ _ new_ok F R) as (_ & _ & _ & H).
  exact (H n N A).
Qed.
Print Assumptions C25_in_order_partial.

(** With different sizes a later, smaller request overtakes an earlier one. *)
Definition ex_big : upload := MkUp 1 (MkBlock 0 0 16384).
Definition ex_small : upload := MkUp 2 (MkBlock 0 0 1024).

Theorem C25_order_refuted : exists cs,
  Forall call_ok cs /\
  map a_up (snd (run cs newUploader)) = [ex_small] /\
  u_pending (fst (run cs newUploader)) = [ex_big] /\
  asked cs = [ex_big; ex_small].
Proof.
  exists [Ask ex_big (fun _ => 0); Ask ex_small (fun _ => 0); Grant 2000;
          Run (fun _ => true) (fun b => Some (repeat 7 (Z.to_nat (b_length b)))) (fun _ => 0)].
  split.
  - repeat constructor; cbn; intros; lia.
  - vm_compute. auto.
Qed.
Print Assumptions C25_order_refuted.

(** A run of sendRequests answers only established peers and forgets the others. *)
Theorem C25_closed_peer : forall cs u out est load reply u' out',
  Forall call_ok (cs ++ [Run est load reply]) -> run cs newUploader = (u, out) ->
  (0 < u_posts u)%nat ->
  step (Run est load reply) u = (u', out') ->
  Forall (fun a => est (up_peer (a_up a)) = true) out' /\
  Forall (fun r => est (up_peer r) = true) (u_pending u') /\
  subseq (map a_up out') (u_pending u).
Proof.
  intros cs u out est load reply u' out' F R P St. apply Forall_app in F. destruct F as (F1 & F2).
  inversion F2 as [|? ? Fr _]; subst.
  destruct (run_ok cs _ _ _ new_ok F1 R) as (O & _).
  destruct (send_ok est load reply u u' out' O Fr St)
    as [(E1 & _)|(posts & s & k & a & E1 & E2 & E3 & E4 & _)]; [lia|].
  destruct O as (A & Q). apply serve_ok in E2; [|lia|].
  2:{ eapply Forall_impl; [|exact Q]. cbn. intros; lia. }
  destruct E2 as (S1 & S2 & S3 & S4 & S5 & _).
  refine (conj _ (conj _ _)).
  - rewrite <- E4 in S4. apply Forall_map in S4. exact S4.
  - rewrite E3. exact S5.
  - rewrite E4. exact S1.
Qed.
Print Assumptions C25_closed_peer.

(** After cancelRequests(p) peer [p] gets nothing until it asks again. *)
Lemma run_without p cs : forall u u' out, u_ok u -> Forall call_ok cs ->
  (forall r, In r (asked cs) -> up_peer r <> p) ->
  (forall r, In r (u_pending u) -> up_peer r <> p) ->
  run cs u = (u', out) -> forall a, In a out -> up_peer (a_up a) <> p.
Proof.
  intros u u' out O F A P R a Ha.
  destruct (run_ok cs u u' out O F R) as (_ & _ & H & _). specialize (H (a_up a)).
  assert (C : (0 < count_occ upload_eq_dec (map a_up out) (a_up a))%nat).
  { apply count_occ_In. apply in_map. exact Ha. }
  destruct (in_dec upload_eq_dec (a_up a) (u_pending u)) as [i|i]; [apply P; exact i|].
  destruct (in_dec upload_eq_dec (a_up a) (asked cs)) as [j|j]; [apply A; exact j|].
  apply (count_occ_not_In upload_eq_dec) in i. apply (count_occ_not_In upload_eq_dec) in j. lia.
Qed.

Theorem C25_cancelled : forall cs1 cs2 p u out u' out',
  Forall call_ok (cs1 ++ cs2) -> run cs1 newUploader = (u, out) ->
  (forall r, In r (asked cs2) -> up_peer r <> p) ->
  run (Cancel p :: cs2) u = (u', out') ->
  forall a, In a out' -> up_peer (a_up a) <> p.
Proof.
  intros cs1 cs2 p u out u' out' F R A H. apply Forall_app in F. destruct F as (F1 & F2).
  destruct (run_ok cs1 _ _ _ new_ok F1 R) as (O & _).
  cbn [run step] in H. destruct (run cs2 (cancelRequests p u)) as [u2 o2] eqn:E.
  inversion H; subst. cbn [app].
  apply (run_without p cs2 (cancelRequests p u) u' out' ); try assumption.
  - split; [apply O|apply (filter_u_ok _ u O)].
  - intros r Hr. cbn in Hr. apply filter_In in Hr. destruct Hr as (_ & Hr).
    intros <-. rewrite Nat.eqb_refl in Hr. discriminate.
Qed.
Print Assumptions C25_cancelled.

(** When the storage read succeeds the answer carries the bytes read. *)
Theorem C55_data_partial : forall cs u out est load reply u' out' a d,
  Forall call_ok (cs ++ [Run est load reply]) -> run cs newUploader = (u, out) ->
  step (Run est load reply) u = (u', out') ->
  In a out' -> load (up_block (a_up a)) = Some d -> a_data a = d.
Proof.
  intros cs u out est load reply u' out' a d F R St Ha Hd. apply Forall_app in F. destruct F as (F1 & F2).
  inversion F2 as [|? ? Fr _]; subst.
  destruct (run_ok cs _ _ _ new_ok F1 R) as (O & _).
  destruct (send_ok est load reply u u' out' O Fr St)
    as [(_ & _ & E)|(posts & s & k & a0 & E1 & E2 & E3 & E4 & E5 & _)].
  - subst. destruct Ha.
  - unfold answers_of in E5. rewrite Forall_forall in E5. apply E5; assumption.
Qed.
Print Assumptions C55_data_partial.

(** When it fails the peer is sent the bytes of the previous answer, here those
    read for another peer. *)
Theorem C55_stale_data_refuted : exists cs a1 a2,
  Forall call_ok cs /\ snd (run cs newUploader) = [a1; a2] /\
  a_up a1 <> a_up a2 /\ a_data a2 = a_data a1 /\ length (a_data a1) = 4%nat.
Proof.
  exists [Ask (MkUp 1 (MkBlock 0 0 4)) (fun n => n); Ask (MkUp 2 (MkBlock 9 0 4)) (fun n => n);
          Run (fun _ => true) (fun b => if b_index b =? 0 then Some [1;2;3;4] else None) (fun n => n);
          Run (fun _ => true) (fun b => if b_index b =? 0 then Some [1;2;3;4] else None) (fun n => n)].
  exists (MkAns (MkUp 1 (MkBlock 0 0 4)) [1;2;3;4]), (MkAns (MkUp 2 (MkBlock 9 0 4)) [1;2;3;4]).
  split.
  - repeat constructor; cbn; intros; lia.
  - split; [vm_compute; reflexivity|]. split; [cbn; discriminate|]. auto.
Qed.
Print Assumptions C55_stale_data_refuted.

(** ** C54 *)
Lemma pendingBytes_lens l : pendingBytes l = lens l.
Proof. induction l; cbn [pendingBytes lens]; lia. Qed.

Lemma filter_awake f u u' : awake u -> u_pending u' = filter f (u_pending u) ->
  u_posts u' = u_posts u -> u_asking u' = u_asking u -> awake u'.
Proof.
  unfold awake. intros [H|[H|H]] E1 E2 E3.
  - left. rewrite E1, H. reflexivity.
  - right. left. rewrite E2. exact H.
  - right. right. rewrite E3. exact H.
Qed.

Lemma light_here cs u : light cs u -> pendingBytes (u_pending u) < 4294967296.
Proof. destruct cs; intros (H & _); exact H. Qed.

(** If sendRequests is never granted bytes on the spot, pending requests are
    never forgotten. *)
Theorem C54_no_stall_partial : forall cs u out,
  Forall call_ok cs -> light cs newUploader ->
  (forall est load reply, In (Run est load reply) cs -> forall n, reply n = 0) ->
  run cs newUploader = (u, out) -> awake u.
Proof.
  intros cs u out F L N R.
  assert (G : forall cs u0 u out, u_ok u0 -> Forall call_ok cs -> light cs u0 ->
     (forall est load reply, In (Run est load reply) cs -> forall n, reply n = 0) ->
     awake u0 -> run cs u0 = (u, out) -> awake u).
  { clear. induction cs as [|c cs IH]; intros u0 u out O F L N W R; cbn [run] in R.
    - inversion R; subst. exact W.
    - inversion F as [|? ? Fc Fs]; subst.
      destruct (step c u0) as [u1 o1] eqn:St. destruct (run cs u1) as [u2 o2] eqn:R2.
      inversion R; subst. clear R. cbn [light] in L. destruct L as (_ & L). rewrite St in L. cbn [fst] in L.
      destruct (step_ok c u0 u1 o1 O Fc St) as (O1 & _).
      apply (IH u1 u o2); try assumption.
      + intros est load reply Hi. apply (N est load reply). right. exact Hi.
      + destruct c; cbn [step] in St; inversion St; subst.
        * unfold awake, pieceRequest. cbn. right.
          destruct (u_asking (requestBytes _ reply u0)); [right; reflexivity|left; lia].
        * unfold awake, assignBandwidth. cbn. destruct (u_pending u0); [left; reflexivity|right; left; lia].
        * assert (Z : forall n, reply n = 0) by (apply (N est load reply); left; reflexivity).
          destruct (send_ok est load reply u0 u1 o1 O Fc St)
            as [(E1 & E2 & E3)|(posts & s & k & a & E1 & E2 & E3 & E4 & E5 & E6 & E7 & E8 & E9 & E10)].
          -- subst. exact W.
          -- destruct E10 as [E|[E|[E|(E & _)]]].
             ++ left. rewrite E3. exact E.
             ++ exfalso. apply light_here in L. rewrite E3, pendingBytes_lens in L. lia.
             ++ right. right. exact E.
             ++ exfalso. apply E. apply Z.
        * eapply filter_awake; [exact W|reflexivity|reflexivity|reflexivity].
        * eapply filter_awake; [exact W|reflexivity|reflexivity|reflexivity].
        * left. reflexivity. }
  eapply G; eauto using new_ok. left. reflexivity.
Qed.
Print Assumptions C54_no_stall_partial.

(** If every request for bytes is granted on the spot (no upload limit) there is
    always a posted job as well. *)
Theorem C54_unlimited_partial : forall cs u out,
  Forall call_ok cs -> light cs newUploader ->
  (forall c, In c cs -> match c with
     | Ask _ reply | Run _ _ reply => forall n, reply n = n | Grant _ => False | _ => True end) ->
  run cs newUploader = (u, out) -> awake u.
Proof.
  intros cs u out F L N R.
  set (good := fun u => u_asking u = false /\ (length (u_pending u) <= u_posts u)%nat /\
     Forall (fun r => b_length (up_block r) <= u_avail u) (u_pending u)).
  assert (G : forall cs u0 u out, u_ok u0 -> Forall call_ok cs -> light cs u0 ->
     (forall c, In c cs -> match c with
       | Ask _ reply | Run _ _ reply => forall n, reply n = n | Grant _ => False | _ => True end) ->
     good u0 -> run cs u0 = (u, out) -> good u).
  { clear - good. induction cs as [|c cs IH]; intros u0 u out O F L N W R; cbn [run] in R.
    - inversion R; subst. exact W.
    - inversion F as [|? ? Fc Fs]; subst.
      destruct (step c u0) as [u1 o1] eqn:St. destruct (run cs u1) as [u2 o2] eqn:R2.
      inversion R; subst. clear R. cbn [light] in L. destruct L as (L0 & L). rewrite St in L. cbn [fst] in L.
      destruct (step_ok c u0 u1 o1 O Fc St) as (O1 & _).
      pose proof (N c (or_introl eq_refl)) as Nc.
      apply (IH u1 u o2); try assumption.
      + intros c' Hi. apply N. right. exact Hi.
      + destruct W as (W1 & W2 & W3). destruct c; cbn [step] in St; inversion St; subst.
        * (* Ask *)
          destruct Fc as (Fc1 & Fc2). unfold pieceRequest, requestBytes. rewrite W1, orb_false_r.
          destruct O as (Oa & Ob).
          destruct (b_length (up_block r) <=? u_avail u0) eqn:E.
          -- unfold good. cbn [u_asking u_pending u_posts u_avail]. rewrite W1.
             split; [reflexivity|]. split; [rewrite app_length; cbn; lia|].
             apply Forall_app. split; [exact W3|]. constructor; [lia|constructor].
          -- rewrite Nc. destruct (b_length (up_block r) - u_avail u0 =? 0) eqn:E0; [lia|].
             unfold good. cbn [u_asking u_pending u_posts u_avail].
             split; [reflexivity|]. split; [rewrite app_length; cbn; lia|].
             unfold u32. rewrite Z.mod_small by lia.
             apply Forall_app. split; [|constructor; [lia|constructor]].
             eapply Forall_impl; [|exact W3]. cbn. intros; lia.
        * destruct Nc.
        * (* Run *)
          destruct (send_ok est load reply u0 u1 o1 O Fc St)
            as [(E1 & E2 & E3)|(posts & s & k & a & E1 & E2 & E3 & E4 & E5 & E6 & E7 & E8 & E9 & E10)].
          -- subst. unfold good. auto.
          -- assert (Hk : (length k <= posts)%nat).
             { destruct (u_pending u0) as [|r0 rs] eqn:Q.
               - cbn in E2. inversion E2; subst. cbn. lia.
               - cbn [length] in W2. cbn [serve] in E2.
                 inversion W3 as [|? ? Wr _]; subst.
                 assert (Fp : Forall (fun r => 0 <= b_length (up_block r)) rs /\ 0 <= b_length (up_block r0)).
                 { destruct O as (_ & Ob). rewrite Q in Ob. inversion Ob as [|? ? Oh Ot]. split; [|lia].
                   eapply Forall_impl; [|exact Ot]. cbn. intros; lia. }
                 destruct O as (Oa & _).
                 assert ((length (u_pending u1) <= length rs)%nat); [|lia].
                 destruct (est (up_peer r0)).
                 + destruct (b_length (up_block r0) <=? u_avail u0) eqn:E; [|lia].
                   destruct (serve est rs _) as [[s0 k0] a0] eqn:Sv.
                   apply serve_ok in Sv; [|lia|apply Fp]. destruct Sv as (_ & S2 & _).
                   inversion E2; subst. apply ss_length in S2. congruence.
                 + apply serve_ok in E2; [|lia|apply Fp]. destruct E2 as (_ & S2 & _).
                   apply ss_length in S2. congruence. }
             assert (AS : u_asking u1 = false).
             { unfold sendRequests in St. rewrite E1 in St.
               destruct (sendLoop _ _ _ _ _ _ _ _ _ _ _) as [[[[[[v dl] w] av] up] bf] sn].
               inversion St; subst u1 o1. rewrite W1.
               destruct (0 <? w) eqn:Wp; [|reflexivity].
               unfold requestBytes. cbn [u_avail u_asking]. rewrite orb_false_r.
               destruct (w <=? av) eqn:E; [reflexivity|]. rewrite Nc.
               destruct (w - av =? 0) eqn:E0; [lia|]. reflexivity. }
             unfold good. rewrite AS, E3, E6. split; [reflexivity|]. split; [exact Hk|].
             destruct E10 as [E|[E|[E|(Ex & _ & E)]]].
             ++ rewrite E. constructor.
             ++ exfalso. apply light_here in L. rewrite E3, pendingBytes_lens in L. lia.
             ++ congruence.
             ++ rewrite Nc in E. rewrite E. replace (a + (lens k - a)) with (lens k) by lia.
                apply light_here in L. rewrite E3, pendingBytes_lens in L.
                destruct O1 as (_ & Ob). rewrite E3 in Ob.
                assert (Lk := lens_nonneg k Ob). unfold u32. rewrite Z.mod_small by lia.
                clear - Ob. apply Forall_forall. intros r Hr. induction Ob; [destruct Hr|].
                cbn [lens]. pose proof (lens_nonneg l Ob). destruct Hr as [->|Hr]; [lia|]. specialize (IHOb Hr). lia.
        * unfold good. cbn. split; [exact W1|]. split.
          -- pose proof (ss_length _ _ (ss_filter (fun r => negb (Nat.eqb (up_peer r) p)) (u_pending u0))). lia.
          -- eapply ss_Forall; [apply ss_filter|exact W3].
        * unfold good. cbn. split; [exact W1|]. split.
          -- pose proof (ss_length _ _ (ss_filter (fun r => est (up_peer r)) (u_pending u0))). lia.
          -- eapply ss_Forall; [apply ss_filter|exact W3].
        * unfold good. cbn. split; [reflexivity|]. split; [lia|constructor]. }
  assert (W : good u).
  { apply (G cs newUploader u out new_ok F L N); [|exact R]. unfold good. cbn. split; [reflexivity|]. split; [lia|constructor]. }
  destruct W as (W1 & W2 & _). unfold awake. destruct (u_pending u); [left; reflexivity|right; left].
  cbn [length] in W2. lia.
Qed.
Print Assumptions C54_unlimited_partial.

Lemma idle est load reply n : forall u, u_posts u = 0%nat -> run (repeat (Run est load reply) n) u = (u, []).
Proof.
  induction n as [|n IH]; intros u H; [reflexivity|].
  cbn [repeat run step]. unfold sendRequests. rewrite H. rewrite IH by exact H. reflexivity.
Qed.

(** Otherwise a pending request can be forgotten: the bytes for the first of two
    queued requests are granted later, those for the second on the spot inside
    sendRequests, and then nothing is posted although the bytes are there. *)
Theorem C54_stall_refuted : exists cs r,
  Forall call_ok cs /\ light cs newUploader /\
  let u := fst (run cs newUploader) in
  u_pending u = [r] /\ u_avail u = b_length (up_block r) /\ u_posts u = 0%nat /\ u_asking u = false /\
  forall est load reply n, run (repeat (Run est load reply) n) u = (u, []).
Proof.
  exists [Ask ex_big (fun _ => 0); Ask ex_big (fun _ => 0); Grant 16384;
          Run (fun _ => true) (fun b => Some []) (fun n => n)].
  exists ex_big. split; [|split].
  - repeat constructor; cbn; intros; lia.
  - repeat split; vm_compute; reflexivity.
  - cbv zeta. refine (conj eq_refl (conj eq_refl (conj eq_refl (conj eq_refl _)))).
    intros est load reply n. apply idle. reflexivity.
Qed.
Print Assumptions C54_stall_refuted.

Example C25_example :
  let cs := [Ask (MkUp 1 (MkBlock 3 0 4)) (fun _ => 0); Ask (MkUp 2 (MkBlock 3 4 4)) (fun _ => 0);
             Ask (MkUp 3 (MkBlock 3 4 4)) (fun _ => 0); Grant 8;
             Run (fun p => negb (Nat.eqb p 2)) (fun b => Some (repeat (b_index b) 4)) (fun _ => 0)] in
  Forall call_ok cs /\
  map (fun a => up_peer (a_up a)) (snd (run cs newUploader)) = [1%nat; 3%nat] /\
  u_pending (fst (run cs newUploader)) = [].
Proof.
  split.
  - repeat constructor; cbn; intros; lia.
  - vm_compute. auto.
Qed.
