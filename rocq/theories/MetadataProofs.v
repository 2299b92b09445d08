(** Proofs about the metadata download. *)
From Coq Require Import Sorted.
From Verif Require Import Base BaseLemmas Dec BencodeModel ShaModel MetadataModel MetadataSpec.

#[global] Opaque SHA1.

(** ** Sets as ascending lists *)

Lemma inSet_In x l : inSet x l = true <-> In x l.
Proof.
  unfold inSet. rewrite existsb_exists. split.
  - intros (y & I & E). apply Z.eqb_eq in E. now subst.
  - intros I. exists x. split; [exact I|apply Z.eqb_refl].
Qed.

Lemma setErase_In x y l : In y (setErase x l) <-> In y l /\ y <> x.
Proof. unfold setErase. rewrite filter_In, negb_true_iff, Z.eqb_neq. reflexivity. Qed.

Lemma sorted_filter f l : StronglySorted Z.lt l -> StronglySorted Z.lt (filter f l).
Proof.
  induction 1 as [|x l S IH F]; [constructor|]. cbn. destruct (f x); [|exact IH].
  constructor; [exact IH|]. rewrite Forall_forall in F |- *. intros y I. apply filter_In in I as [I _]. now apply F.
Qed.

Lemma setInsert_end x l : Forall (fun y => y < x) l -> setInsert x l = l ++ [x].
Proof.
  induction 1 as [|y l F _ IH]; [reflexivity|]. cbn. destruct (Z.ltb_spec x y); [lia|]. destruct (Z.eqb_spec x y); [lia|].
  now rewrite IH.
Qed.

(** The numbers from [a] on, [n] of them. *)
Fixpoint zseq (a : Z) (n : nat) : list Z := match n with O => [] | S n => a :: zseq (a + 1) n end.

Lemma In_zseq n : forall a x, In x (zseq a n) <-> a <= x < a + Z.of_nat n.
Proof.
  induction n; intros a x; cbn [zseq In]; [lia|]. rewrite IHn. lia.
Qed.

Lemma zseq_sorted n : forall a, StronglySorted Z.lt (zseq a n).
Proof.
  induction n; intros a; cbn [zseq]; constructor; [apply IHn|]. rewrite Forall_forall. intros x I. apply In_zseq in I. lia.
Qed.

Lemma zseq_snoc n : forall a, zseq a (S n) = zseq a n ++ [a + Z.of_nat n].
Proof.
  induction n; intros a.
  - cbn. do 2 f_equal. lia.
  - change (zseq a (S (S n))) with (a :: zseq (a + 1) (S n)). rewrite IHn. cbn [zseq app]. do 3 f_equal. lia.
Qed.

(** ** [init] *)

Lemma parts_step sz : 16384 < sz -> parts sz = 1 + parts (sz - 16384).
Proof. unfold parts. intros H. lia. Qed.

Lemma parts_small sz : 0 < sz <= 16384 -> parts sz = 1.
Proof. unfold parts. intros H. lia. Qed.

Lemma initLoop_ok fuel : forall sz n rem, 0 <= sz -> sz / 16384 + 1 <= Z.of_nat fuel -> Z.of_nat n + parts sz < 4294967296 ->
  rem = zseq 0 n -> initLoop fuel sz (Z.of_nat n) rem = (Z.of_nat n + parts sz, zseq 0 (n + Z.to_nat (parts sz))).
Proof.
  induction fuel; intros sz n rem Hs Hf Hp ->; [lia|]. cbn [initLoop].
  destruct (Z.eq_dec sz 0) as [->|N].
  { cbn. change (parts 0) with 0. rewrite Z.add_0_r, Nat.add_0_r. reflexivity. }
  replace (sz >? 0) with true by lia. unfold mPart.
  assert (IE : setInsert (Z.of_nat n) (zseq 0 n) = zseq 0 (S n)).
  { rewrite setInsert_end, zseq_snoc; [now rewrite Z.add_0_l|]. rewrite Forall_forall. intros y I. apply In_zseq in I. lia. }
  rewrite IE.
  destruct (Z.gtb_spec sz 16384).
  - rewrite (parts_step sz) in * by lia.
    assert (0 <= parts (sz - 16384)) by (unfold parts; apply Z.div_pos; lia).
    replace (u32 (Z.of_nat n + 1)) with (Z.of_nat (S n)) by (unfold u32; rewrite Z.mod_small by lia; lia).
    rewrite IHfuel; try lia; try reflexivity.
    f_equal; [lia|]. f_equal. lia.
  - rewrite (parts_small sz) in * by lia.
    replace (u32 (Z.of_nat n + 1)) with (Z.of_nat (S n)) by (unfold u32; rewrite Z.mod_small by lia; lia).
    assert (0 < Z.of_nat fuel \/ fuel = O) as [F|F] by lia.
    + rewrite IHfuel; try lia; try reflexivity; change (parts 0) with 0; try lia.
      f_equal; [lia|]. f_equal. lia.
    + subst fuel. cbn [initLoop]. f_equal; [lia|]. f_equal. lia.
Qed.

Lemma parts_range sz : 0 < sz < 4294967296 -> 0 < parts sz <= 262144.
Proof. unfold parts. intros H. split; lia. Qed.

Lemma minit_ok sz : 0 < sz < 4294967296 ->
  let r := minit noRecon sz in
  zlen (mbuf r) = sz /\ mpieces r = parts sz /\ mnext r = 0 /\ mremain r = zseq 0 (Z.to_nat (parts sz)).
Proof.
  intros H. pose proof (parts_range sz H). cbn zeta. unfold minit, mPart. cbn [mremain noRecon mbuf].
  assert (IL : initLoop (Z.to_nat (sz / 16384 + 1)) sz 0 [] = (parts sz, zseq 0 (Z.to_nat (parts sz)))).
  { change 0 with (Z.of_nat 0). rewrite (initLoop_ok _ sz 0 []); try reflexivity; try lia. }
  rewrite IL.
  cbn [mbuf mpieces mnext mremain]. refine (conj _ (conj eq_refl (conj eq_refl eq_refl))).
  rewrite firstn_nil. cbn [app length]. unfold zlen. rewrite repeat_length. lia.
Qed.

(** ** Copying a part *)

Lemma mcopy_ok b off d : 0 <= off -> off + zlen d <= zlen b ->
  exists b', mcopy b off d = Ok b' /\ zlen b' = zlen b /\
    (forall i, 0 <= i < zlen b -> nth (Z.to_nat i) b' 0 = if (off <=? i) && (i <? off + zlen d) then nth (Z.to_nat (i - off)) d 0 else nth (Z.to_nat i) b 0).
Proof.
  intros H1 H2. unfold mcopy. replace (off + zlen d <=? zlen b) with true by lia.
  eexists. split; [reflexivity|]. unfold zlen in *. split.
  - rewrite !app_length, firstn_length, skipn_length. lia.
  - intros i Hi. destruct (Z.leb_spec off i); cbn [andb].
    + rewrite app_nth2 by (rewrite firstn_length; lia). rewrite firstn_length.
      replace (Z.to_nat i - Init.Nat.min (Z.to_nat off) (length b))%nat with (Z.to_nat (i - off)) by lia.
      destruct (Z.ltb_spec i (off + Z.of_nat (length d))).
      * rewrite app_nth1 by lia. reflexivity.
      * rewrite app_nth2 by lia.
        rewrite <- (firstn_skipn (Z.to_nat off + length d) b) at 2.
        rewrite (app_nth2 (firstn _ b)); rewrite firstn_length; [|lia]. f_equal. lia.
    + rewrite app_nth1 by (rewrite firstn_length; lia).
      rewrite <- (firstn_skipn (Z.to_nat off) b) at 2. rewrite (app_nth1 (firstn _ b)); [reflexivity|]. rewrite firstn_length. lia.
Qed.

(** ** [getMissingPieceIndex] *)

Lemma lowerBound_some x l : (exists y, In y l /\ x <= y) -> exists y, lowerBound x l = Some y /\ In y l /\ x <= y.
Proof.
  induction l as [|a l IH]; intros (y & I & L); [easy|]. cbn. destruct (Z.leb_spec x a).
  - exists a. split; [reflexivity|]. split; [now left|assumption].
  - destruct I as [->|I]; [lia|]. destruct IH as (z & E & J & K); [eauto|]. exists z. split; [exact E|]. split; [now right|assumption].
Qed.

Lemma last_max l d : StronglySorted Z.lt l -> l <> [] -> In (last l d) l /\ forall y, In y l -> y <= last l d.
Proof.
  induction 1 as [|a l S IH F]; intros N; [easy|]. destruct l as [|b l].
  - cbn. split; [now left|]. intros y [->|[]]. lia.
  - destruct IH as [I M]; [discriminate|]. change (last (a :: b :: l) d) with (last (b :: l) d). split; [now right|].
    intros y [->|J]; [|now apply M]. rewrite Forall_forall in F. specialize (F _ I). lia.
Qed.

(** Something missing is named, and only the position changes. *)
Lemma getMissing_ok r : StronglySorted Z.lt (mremain r) -> mremain r <> [] -> Forall (fun k => 0 <= k) (mremain r) ->
  exists n i, getMissingPieceIndex r = ({| mbuf := mbuf r; mpieces := mpieces r; mnext := n; mremain := mremain r |}, i) /\ In i (mremain r).
Proof.
  intros S N P. unfold getMissingPieceIndex. destruct (mremain r) as [|a l] eqn:E; [congruence|]. rewrite <- E in *.
  destruct (last_max _ 0 S) as [I M]; [congruence|].
  assert (X : exists y, In y (mremain r) /\ (if last (mremain r) 0 <? mnext r then 0 else mnext r) <= y).
  { exists (last (mremain r) 0). split; [exact I|]. rewrite Forall_forall in P. specialize (P _ I). destruct (Z.ltb_spec (last (mremain r) 0) (mnext r)); lia. }
  apply lowerBound_some in X as (y & EQ & J & _). rewrite EQ. do 2 eexists. split; [reflexivity|exact J].
Qed.

(** ** Histories *)

Lemma live_snoc evs e : live (evs ++ [e]) = match e with MStart => true | MStop => false | _ => live evs end.
Proof. unfold live. rewrite fold_left_app. reflexivity. Qed.

Lemma announced_app a b : announced (a ++ b) = match announced a with Some z => Some z | None => announced b end.
Proof.
  induction a as [|e a IH]; [reflexivity|]. cbn. destruct e as [|p sz [|]| | | |]; try exact IH.
  destruct (sz =? 0); [exact IH|reflexivity].
Qed.

Lemma snoc_cases {A} (evs : list A) e pre x post : evs ++ [e] = pre ++ x :: post ->
  (post = [] /\ e = x /\ pre = evs) \/ exists post', post = post' ++ [e] /\ evs = pre ++ x :: post'.
Proof.
  destruct post as [|y post _] using rev_ind; intros E.
  - apply app_inj_tail in E as [-> ->]. now left.
  - right. rewrite app_comm_cons, app_assoc in E. apply app_inj_tail in E as [-> ->]. exists post. now split.
Qed.

Definition accepts (evs : list mevent) (e : mevent) (k : Z) (d : list Z) : Prop :=
  exists p t, e = MMessage p (LData k t d) /\ live evs = true /\ announced evs = Some t.

Lemma arrived_snoc evs e k d : arrived (evs ++ [e]) k d <-> arrived evs k d \/ accepts evs e k d.
Proof.
  split.
  - intros (pre & p & t & post & E & L & A). destruct (snoc_cases _ _ _ _ _ E) as [(-> & -> & ->)|(post' & -> & ->)].
    + right. exists p, t. now repeat split.
    + left. exists pre, p, t, post'. now repeat split.
  - intros [(pre & p & t & post & -> & L & A)|(p & t & -> & L & A)].
    + exists pre, p, t, (post ++ [e]). rewrite <- app_assoc. now repeat split.
    + exists evs, p, t, []. now repeat split.
Qed.

Lemma first_snoc evs e k d : first_arrival evs k d -> first_arrival (evs ++ [e]) k d.
Proof.
  intros (pre & p & t & post & -> & L & A & F). exists pre, p, t, (post ++ [e]). rewrite <- app_assoc. now repeat split.
Qed.

Lemma first_new evs e k d : accepts evs e k d -> (forall d', ~ arrived evs k d') -> first_arrival (evs ++ [e]) k d.
Proof. intros (p & t & -> & L & A) F. exists evs, p, t, []. now repeat split. Qed.

Lemma first_arrived evs k d : first_arrival evs k d -> arrived evs k d.
Proof. intros (pre & p & t & post & -> & L & A & F). exists pre, p, t, post. now repeat split. Qed.

(** ** The invariant *)

(** Bytes of part [k] in the buffer. *)
Definition holds (b : list Z) (k : Z) (d : list Z) : Prop :=
  k * 16384 + zlen d <= zlen b /\ zlen d <= 16384 /\ forall i, 0 <= i < zlen d -> nth (Z.to_nat (k * 16384 + i)) b 0 = nth (Z.to_nat i) d 0.

Record minv (evs : list mevent) (s : mdl) : Prop := {
  I_live : mact s = live evs;
  I_fin : mfin s = mfinished (mrec s);
  I_none : announced evs = None -> mbuf (mrec s) = [] /\ mpieces (mrec s) = 0 /\ mremain (mrec s) = [] /\ (forall k d, ~ arrived evs k d);
  I_some : forall sz, announced evs = Some sz ->
    0 < sz < 4294967296 /\ zlen (mbuf (mrec s)) = sz /\ mpieces (mrec s) = parts sz /\ StronglySorted Z.lt (mremain (mrec s)) /\
    (forall k, In k (mremain (mrec s)) -> 0 <= k < parts sz /\ forall d, ~ arrived evs k d) /\
    (forall k, 0 <= k < parts sz -> In k (mremain (mrec s)) \/
       exists d, first_arrival evs k d /\ holds (mbuf (mrec s)) k d);
}.

Lemma minv_start : minv [] noMdl.
Proof.
  constructor; try reflexivity; try discriminate. intros _. repeat split. intros k d (pre & p & t & post & E & _). now destruct pre.
Qed.

(** Asking changes nothing the invariant speaks of. *)
Lemma requestPiece_same s p : let s' := requestPiece s p in
  mact s' = mact s /\ mfin s' = mfin s /\ mbuf (mrec s') = mbuf (mrec s) /\ mpieces (mrec s') = mpieces (mrec s) /\
  mremain (mrec s') = mremain (mrec s) /\ mcomms s' = mcomms s /\ minfo s' = minfo s.
Proof.
  cbn zeta. unfold requestPiece. destruct (mact s && negb (mfin s)); [|now repeat split].
  unfold getMissingPieceIndex. destruct (mremain (mrec s)) eqn:E; cbn; rewrite ?E; now repeat split.
Qed.

Lemma mfinished_eq a b : mremain a = mremain b -> mpieces a = mpieces b -> mfinished a = mfinished b.
Proof. unfold mfinished. now intros -> ->. Qed.

Lemma minv_ext evs s s' : minv evs s -> mact s' = mact s -> mfin s' = mfin s -> mbuf (mrec s') = mbuf (mrec s) ->
  mpieces (mrec s') = mpieces (mrec s) -> mremain (mrec s') = mremain (mrec s) -> minv evs s'.
Proof.
  intros [A B C D] E1 E2 E3 E4 E5. constructor.
  - congruence.
  - rewrite E2, B. symmetry. now apply mfinished_eq.
  - now rewrite E3, E4, E5.
  - intros sz H. rewrite E3, E4, E5. now apply D.
Qed.

Lemma minv_request evs s p : minv evs s -> minv evs (requestPiece s p).
Proof. intros I. destruct (requestPiece_same s p) as (A & B & C & D & E & _). now apply (minv_ext evs s). Qed.

Lemma minv_requests evs l : forall s, minv evs s -> minv evs (fold_left requestPiece l s).
Proof. induction l; intros s I; [exact I|]. cbn. apply IHl, minv_request, I. Qed.

(** An event which brings no part and no size. *)
Lemma minv_quiet evs e s s' : minv evs s -> announced [e] = None -> (forall k d, ~ accepts evs e k d) ->
  mact s' = live (evs ++ [e]) -> mfin s' = mfin s -> mrec s' = mrec s -> minv (evs ++ [e]) s'.
Proof.
  intros [A B C D] N Q L F R. constructor.
  - exact L.
  - now rewrite F, R.
  - rewrite announced_app. destruct (announced evs) eqn:E; [discriminate|]. intros _. destruct (C eq_refl) as (C1 & C2 & C3 & C4).
    rewrite R. repeat split; try assumption. intros k d H. apply arrived_snoc in H as [H|H]; [now apply C4 in H|now apply Q in H].
  - intros sz. rewrite announced_app. destruct (announced evs) eqn:E; [|congruence]. intros H. rewrite R.
    destruct (D sz) as (D1 & D2 & D3 & D4 & D5 & D6); [congruence|].
    refine (conj D1 (conj D2 (conj D3 (conj D4 (conj _ _))))).
    + intros k I. destruct (D5 k I) as [X Y]. split; [exact X|]. intros d H2. apply arrived_snoc in H2 as [H2|H2]; [now apply Y in H2|now apply Q in H2].
    + intros k I. destruct (D6 k I) as [X|(d & X & Y)]; [now left|right]. exists d. split; [now apply first_snoc|exact Y].
Qed.

(** A part within its bounds. *)
Definition fits (evs : list mevent) (e : mevent) : Prop :=
  match e with
  | MMessage _ LUnset => live evs = false
  | MMessage _ (LData k t d) => live evs = true -> announced evs = Some t -> (forall d', ~ arrived evs k d') ->
      k < parts t -> k * 16384 + zlen d <= t
  | _ => True
  end.

Lemma onMessage_ok evs s p msg : minv evs s -> event_ok (MMessage p msg) ->
  fits evs (MMessage p msg) -> exists s', onMessage s p msg = Ok s' /\ minv (evs ++ [MMessage p msg]) s'.
Proof.
  intros I Hok Hf. unfold onMessage. pose proof I as [A B C D].
  destruct (mact s) eqn:L; cbn [negb].
  2:{ eexists. split; [reflexivity|]. apply (minv_quiet evs _ s); try reflexivity; try assumption.
      - intros k d (p' & t & _ & L' & _). congruence.
      - rewrite live_snoc. congruence. }
  assert (Q : forall k t d, announced evs <> Some t -> msg = LData k t d -> forall k0 d0, ~ accepts evs (MMessage p msg) k0 d0).
  { intros k t d N -> k0 d0 (p' & t' & E & _ & S). congruence. }
  destruct msg as [| |k|k t d|k].
  1,3,5: (eexists; split; [reflexivity|]; apply (minv_quiet evs _ s); try reflexivity; try assumption;
        [intros k0 d0 (p' & t' & E & _ & S); congruence|rewrite live_snoc; congruence]).
  { cbn in Hf. congruence. }
  cbn in Hok. destruct Hok as (Hk & Ht & Hd).
  destruct (Z.eqb_spec (zlen (mbuf (mrec s))) t) as [Et|Et]; cbn [negb].
  2:{ eexists. split; [reflexivity|]. apply (minv_quiet evs _ s); try reflexivity; try assumption.
      - apply (Q k t d); [|reflexivity]. intros E. destruct (D t E) as (_ & X & _). congruence.
      - rewrite live_snoc. congruence. }
  unfold maddPiece. destruct (announced evs) as [sz|] eqn:EA.
  2:{ destruct (C eq_refl) as (C1 & C2 & C3 & C4). rewrite C3. cbn [inSet existsb bind]. unfold mfinished at 1. rewrite C3, C2. cbn [negb Z.eqb].
      eexists. split; [reflexivity|]. apply minv_request. apply (minv_quiet evs _ s); try reflexivity; try assumption.
      - intros k0 d0 (p' & t' & E & _ & S). congruence.
      - cbn [mact]. rewrite live_snoc. congruence. }
  destruct (D sz eq_refl) as (D1 & D2 & D3 & D4 & D5 & D6). assert (t = sz) as -> by congruence.
  pose proof (parts_range sz D1) as PR.
  assert (ACC : accepts evs (MMessage p (LData k sz d)) k d) by (exists p, sz; now repeat split).
  destruct (inSet k (mremain (mrec s))) eqn:IS.
  2:{ cbn [bind]. assert (NI : ~ In k (mremain (mrec s))) by (rewrite <- inSet_In; congruence).
      assert (K : minv (evs ++ [MMessage p (LData k sz d)]) s).
      { constructor.
        - rewrite live_snoc. congruence.
        - exact B.
        - rewrite announced_app, EA. discriminate.
        - intros z. rewrite announced_app, EA. intros [= <-]. refine (conj D1 (conj D2 (conj D3 (conj D4 (conj _ _))))).
          + intros k0 I0. destruct (D5 k0 I0) as [X Y]. split; [exact X|]. intros d0 H9. apply arrived_snoc in H9 as [H9|H9]; [now apply Y in H9|].
            destruct H9 as (p' & t' & E & _). injection E as _ <- _ _. congruence.
          + intros k0 I0. destruct (D6 k0 I0) as [X|(d0 & X & Y)]; [now left|right]. exists d0. split; [now apply first_snoc|exact Y]. }
      destruct (mfinished (mrec s)) eqn:FI.
      - eexists. split; [reflexivity|]. apply (minv_ext _ s); try reflexivity; try assumption; cbn; congruence.
      - eexists. split; [reflexivity|]. apply minv_request. apply (minv_ext _ s); try reflexivity; try assumption; cbn; congruence. }
  assert (IK : In k (mremain (mrec s))) by now apply inSet_In.
  destruct (D5 k IK) as [KR KN]. cbn in Hf. assert (FT : k * 16384 + zlen d <= sz) by (apply Hf; [congruence|exact eq_refl||exact EA|exact KN|lia]).
  assert (UO : u32 (k * mPart) = k * 16384) by (unfold u32, mPart; apply Z.mod_small; lia). rewrite UO.
  destruct (mcopy_ok (mbuf (mrec s)) (k * 16384) d) as (b & EB & LB & NB); [lia|lia|]. rewrite EB. cbn [bind].
  set (r := {| mbuf := b; mpieces := mpieces (mrec s); mnext := mnext (mrec s); mremain := setErase k (mremain (mrec s)) |}).
  assert (K : forall s', mact s' = true -> mfin s' = mfinished r -> mrec s' = r -> minv (evs ++ [MMessage p (LData k sz d)]) s').
  { intros s' E1 E2 E3. constructor.
    - rewrite live_snoc. congruence.
    - now rewrite E2, E3.
    - rewrite announced_app, EA. discriminate.
    - intros z. rewrite announced_app, EA. intros [= <-]. rewrite E3. cbn [r mbuf mpieces mremain].
      refine (conj D1 (conj _ (conj D3 (conj _ (conj _ _))))).
      + congruence.
      + now apply sorted_filter.
      + intros k0 I0. apply setErase_In in I0 as [I0 NE]. destruct (D5 k0 I0) as [X Y]. split; [exact X|]. intros d0 H9.
        apply arrived_snoc in H9 as [H9|H9]; [now apply Y in H9|]. destruct H9 as (p' & t' & E & _). congruence.
      + intros k0 I0. destruct (Z.eq_dec k0 k) as [->|NE].
        * right. exists d. split; [now apply first_new|]. refine (conj _ (conj _ _)); [lia|lia|].
          intros i Hi. rewrite NB by lia. replace ((k * 16384 <=? k * 16384 + i) && (k * 16384 + i <? k * 16384 + zlen d)) with true by lia.
          f_equal. lia.
        * destruct (D6 k0 I0) as [X|(d0 & X & Y1 & Y2 & Y3)]; [left; now apply setErase_In|right]. exists d0. split; [now apply first_snoc|].
          refine (conj _ (conj Y2 _)); [lia|]. intros i Hi. rewrite NB by lia.
          replace ((k * 16384 <=? k0 * 16384 + i) && (k0 * 16384 + i <? k * 16384 + zlen d)) with false by lia. now apply Y3. }
  assert (NF : mfin s = false).
  { rewrite B. unfold mfinished. destruct (mremain (mrec s)); [easy|reflexivity]. }
  destruct (mfinished r) eqn:FR.
  - eexists. split; [reflexivity|]. apply K; [reflexivity|reflexivity|reflexivity].
  - eexists. split; [reflexivity|]. apply minv_request. apply K; [reflexivity|cbn; congruence|reflexivity].
Qed.

Lemma mstep_ok evs s e : minv evs s -> event_ok e -> fits evs e -> exists s', mstep s e = Ok s' /\ minv (evs ++ [e]) s'.
Proof.
  intros I Hok Hf. destruct e as [|p sz en|p msg| |p|].
  - eexists. split; [reflexivity|]. apply (minv_quiet evs _ s); try reflexivity; try assumption; [|now rewrite live_snoc].
    intros k d (p & t & E & _). discriminate.
  - eexists. split; [reflexivity|]. unfold onHandshake.
    assert (Q : forall k d, ~ accepts evs (MHandshake p sz en) k d) by (intros k d (p' & t & E & _); discriminate).
    destruct (negb (sz =? 0) && en) eqn:E.
    2:{ apply (minv_quiet evs _ s); try reflexivity; try assumption.
        - cbn. destruct en; [|reflexivity]. destruct (sz =? 0); [reflexivity|discriminate].
        - rewrite live_snoc. apply I. }
    apply andb_prop in E as [N ->]. rewrite negb_true_iff, Z.eqb_neq in N. cbn in Hok. apply minv_request. destruct I as [A B C D].
    destruct (announced evs) as [z|] eqn:EA.
    + destruct (D z eq_refl) as (D1 & D2 & D3 & D4 & D5 & D6). pose proof (parts_range z D1).
      replace (mpieces (mrec s) =? 0) with false by lia. constructor; cbn [mact mfin mrec].
      * rewrite live_snoc. exact A.
      * exact B.
      * rewrite announced_app, EA. discriminate.
      * intros z0. rewrite announced_app, EA. intros [= <-]. refine (conj D1 (conj D2 (conj D3 (conj D4 (conj _ _))))).
        -- intros k I. destruct (D5 k I) as [X Y]. split; [exact X|]. intros d H2. apply arrived_snoc in H2 as [H2|H2]; [now apply Y in H2|now apply Q in H2].
        -- intros k I. destruct (D6 k I) as [X|(d & X & Y)]; [now left|right]. exists d. split; [now apply first_snoc|exact Y].
    + destruct (C eq_refl) as (C1 & C2 & C3 & C4). rewrite C2. cbn [Z.eqb].
      assert (AN : announced (evs ++ [MHandshake p sz true]) = Some sz).
      { rewrite announced_app, EA. cbn. destruct (Z.eqb_spec sz 0); [lia|reflexivity]. }
      assert (MI : exists r, minit (mrec s) sz = r /\ zlen (mbuf r) = sz /\ mpieces r = parts sz /\ mremain r = zseq 0 (Z.to_nat (parts sz))).
      { eexists. split; [reflexivity|]. destruct (minit_ok sz) as (M1 & M2 & _ & M3); [lia|].
        assert (minit (mrec s) sz = minit noRecon sz) as ->; [|now repeat split].
        unfold minit. rewrite C1, C3. reflexivity. }
      destruct MI as (r & -> & M1 & M2 & M3). pose proof (parts_range sz ltac:(lia)). constructor; cbn [mact mfin mrec].
      * rewrite live_snoc. exact A.
      * rewrite B. unfold mfinished. rewrite C3, C2, M3. destruct (Z.to_nat (parts sz)) eqn:T; [lia|reflexivity].
      * rewrite AN. discriminate.
      * intros z. rewrite AN. intros [= <-]. rewrite M3. refine (conj _ (conj M1 (conj M2 (conj _ (conj _ _))))).
        -- lia.
        -- apply zseq_sorted.
        -- intros k I. apply In_zseq in I. split; [lia|]. intros d H2. apply arrived_snoc in H2 as [H2|H2]; [now apply C4 in H2|now apply Q in H2].
        -- intros k I. left. apply In_zseq. lia.
  - now apply onMessage_ok.
  - eexists. split; [reflexivity|].
    assert (K : minv (evs ++ [MRetry]) s).
    { apply (minv_quiet evs _ s); try reflexivity; try assumption.
      - intros k d (p & t & E & _). discriminate.
      - rewrite live_snoc. apply I. }
    destruct (mact s && negb (mfin s)); [|exact K]. now apply minv_requests.
  - eexists. split; [reflexivity|]. apply (minv_quiet evs _ s); try reflexivity; try assumption.
    + intros k d (p' & t & E & _). discriminate.
    + rewrite live_snoc. apply I.
  - eexists. split; [reflexivity|].
    assert (Q : forall k d, ~ accepts evs MStop k d) by (intros k d (p' & t & E & _); discriminate).
    destruct (mact s) eqn:E.
    + apply (minv_quiet evs _ s); try reflexivity; try assumption. now rewrite live_snoc.
    + apply (minv_quiet evs _ s); try reflexivity; try assumption. now rewrite live_snoc.
Qed.

Lemma mrun_app evs : forall s evs', mrun s (evs ++ evs') = bind (mrun s evs) (fun s' => mrun s' evs').
Proof.
  induction evs as [|e evs IH]; intros s evs'; [reflexivity|]. cbn. destruct (mstep s e); [|reflexivity]. cbn. apply IH.
Qed.

(** Every event fits where it comes. *)
Definition all_fit (evs : list mevent) : Prop := forall pre e post, evs = pre ++ e :: post -> fits pre e.

Lemma mrun_ok evs : Forall event_ok evs -> all_fit evs -> exists s, mrun noMdl evs = Ok s /\ minv evs s.
Proof.
  induction evs as [|e evs IH] using rev_ind; intros Hok Hf.
  - exists noMdl. split; [reflexivity|exact minv_start].
  - apply Forall_app in Hok as [Hok He]. inversion He; subst.
    destruct IH as (s & E & I); [exact Hok| |].
    { intros pre x post ->. apply (Hf pre x (post ++ [e])). rewrite <- app_assoc. reflexivity. }
    destruct (mstep_ok evs s e I) as (s' & E' & I'); [assumption|now apply (Hf evs e [])|].
    exists s'. split; [|exact I']. rewrite mrun_app, E. cbn. rewrite E'. reflexivity.
Qed.

(** A run which is defined had only events which fit, up to those which were not used. *)
Lemma mrun_inv evs : Forall event_ok evs -> forall s, mrun noMdl evs = Ok s -> minv evs s.
Proof.
  induction evs as [|e evs IH] using rev_ind; intros Hok s E.
  - injection E as <-. exact minv_start.
  - apply Forall_app in Hok as [Hok He]. inversion He as [|? ? He' _]; subst. rewrite mrun_app in E.
    destruct (mrun noMdl evs) as [s0|] eqn:E0; [|discriminate]. specialize (IH Hok s0 eq_refl). cbn in E.
    assert (F : fits evs e).
    { destruct e as [| |p msg| | |]; try exact Logic.I. destruct msg as [| | |k t d|]; try exact Logic.I.
      - cbn. cbn in E. unfold onMessage in E. rewrite <- (I_live _ _ IH). destruct (mact s0); [discriminate|reflexivity].
      - cbn. intros L A N K. cbn in He'. destruct (I_some _ _ IH t A) as (D1 & D2 & D3 & D4 & D5 & D6). pose proof (parts_range t D1).
        cbn in E. unfold onMessage in E. rewrite (I_live _ _ IH), L in E. cbn [negb] in E.
        replace (zlen (mbuf (mrec s0)) =? t) with true in E by lia. cbn [negb] in E. unfold maddPiece in E.
        assert (IN : In k (mremain (mrec s0))).
        { destruct (D6 k) as [X|(d0 & X & _)]; [lia|exact X|]. apply first_arrived in X. now apply N in X. }
        apply inSet_In in IN. rewrite IN in E. unfold mcopy in E.
        assert (UO : u32 (k * mPart) = k * 16384) by (unfold u32, mPart; apply Z.mod_small; lia). rewrite UO in E.
        destruct (Z.leb_spec (k * 16384 + zlen d) (zlen (mbuf (mrec s0)))); [lia|]. discriminate. }
    destruct (mstep_ok evs s0 e IH He' F) as (s' & E' & I'). rewrite E' in E. cbn in E. congruence.
Qed.
