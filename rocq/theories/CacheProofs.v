From Verif Require Import Base BaseLemmas LayoutModel LayoutSpec LayoutProofs LayoutProps StorageModel StorageSpec StorageProofs StorageProps CacheModel CacheSpec.
From Coq Require Import Permutation.

Lemma latest_overlay ps hist old x : latest ps hist old x = overlay ps hist x (zn old x).
Proof. reflexivity. Qed.

(** ** Torrents *)
Lemma last_nonempty sizes : Forall (fun s => 0 <= s) sizes -> 0 < total sizes ->
  exists k, (k < length sizes)%nat /\ 0 < nth k sizes 0 /\ offset sizes k + nth k sizes 0 = total sizes.
Proof.
  induction sizes as [|s l IH] using rev_ind; intros F T; [cbn in T; lia|]. rewrite total_app in T. cbn [total fold_right] in T.
  apply Forall_app in F. destruct F as [F1 F2]. inversion F2; subst. destruct (Z.eq_dec s 0) as [->|N].
  - destruct IH as (k & K1 & K2 & K3); [assumption|lia|]. exists k. rewrite app_length. cbn [length]. rewrite app_nth1 by assumption.
    split; [lia|]. split; [assumption|]. rewrite total_app. cbn [total fold_right]. unfold offset in *. rewrite firstn_app.
    replace (k - length l)%nat with 0%nat by lia. cbn [firstn]. rewrite app_nil_r. lia.
  - exists (length l). rewrite app_length. cbn [length]. rewrite app_nth2, Nat.sub_diag by lia. cbn [nth]. unfold offset. rewrite firstn_app_exact, total_app. cbn [total fold_right]. lia.
Qed.

Lemma laid_out_piece t idx : laid_out t -> 0 <= idx -> idx * pieceSize t < fullSize t ->
  getPieceSize t idx = size_of_piece (pieceSize t) (fullSize t) idx /\ idx < 4294967295 /\ 0 < pieceSize t < 2147483648.
Proof.
  intros L Hi Hf. destruct L as [ps size t' H1 H2 H3 H4|ps sizes t' H1 H2 H3 H4].
  - assert (E : pieceSize t' = ps /\ fullSize t' = size).
    { unfold parseSingleFile in H4. destruct (Z.eqb_spec ps 0); [lia|]. inversion H4. now split. }
    destruct E as [E1 E2]. rewrite E1, E2 in *.
    assert (B : idx < (size + ps - 1) / ps).
    { apply Z.lt_le_trans with ((idx * ps + 1 + ps - 1) / ps); [|apply Z.div_le_mono; lia]. replace (idx * ps + 1 + ps - 1) with ((idx + 1) * ps) by lia. rewrite Z.div_mul; lia. }
    destruct (C17_single ps size ((size + ps - 1) / ps) idx) as (t1 & T1 & _ & T3 & _); try lia.
    rewrite H4 in T1. inversion T1; subst t1. split; [assumption|lia].
  - destruct (multi ps sizes H1) as (t1 & T1 & _ & _ & T4 & T5 & _ & _). rewrite H4 in T1. inversion T1; subst t1. rewrite T4, T5 in *.
    pose proof H1 as (A1 & A2 & A3 & A4). assert (0 <= idx * ps) by (apply Z.mul_nonneg_nonneg; lia).
    assert (M : total sizes mod ps <> 0).
    { destruct (last_nonempty sizes A2 ltac:(lia)) as (k & K1 & K2 & K3). rewrite <- K3. now apply H3. }
    assert (B : idx <= total sizes / ps) by (apply Z.div_le_lower_bound; lia).
    destruct (C17_multi_partial ps sizes idx H1 H2) as (t1 & U1 & _ & U3); [intros ->; cbn in *; lia|assumption|lia|].
    rewrite H4 in U1. inversion U1; subst t1. split; [assumption|lia].
Qed.

Lemma standard_facts t i : laid_out t -> standard t i ->
  0 <= bindex i < 4294967296 /\ 0 <= bbegin i /\ 0 < blength i <= 16384 /\ bbegin i + blength i <= pieceSize t /\
  bbegin i + blength i <= size_of_piece (pieceSize t) (fullSize t) (bindex i) /\ bindex i * pieceSize t < fullSize t /\
  0 <= block_start (pieceSize t) i /\ block_start (pieceSize t) i + blength i <= fullSize t.
Proof.
  intros L (S1 & S2 & k & S3 & S4 & S5 & S6). destruct (laid_out_piece t (bindex i) L S1 S2) as (P1 & P2 & P3).
  assert (0 <= bindex i * pieceSize t) by (apply Z.mul_nonneg_nonneg; lia). unfold block_start, size_of_piece in *. lia.
Qed.

(** ** Tasks *)
Lemma take_perm id l : In id l -> Permutation (id :: takeId id l) l.
Proof.
  induction l as [|x l IH]; intros H; [inversion H|]. cbn [takeId]. destruct (Z.eqb_spec x id); [now subst|].
  destruct H as [H|H]; [congruence|]. rewrite perm_swap. now constructor; apply IH.
Qed.

Lemma memId_In id l : memId id l = true <-> In id l.
Proof.
  unfold memId. rewrite existsb_exists. split.
  - intros (x & H & E). apply Z.eqb_eq in E. now subst.
  - intros H. exists id. split; [assumption|apply Z.eqb_refl].
Qed.

Lemma find_group s id g : findGroup s id = Some g -> In g (groups s) /\ gid g = id.
Proof. unfold findGroup. intros H. apply find_some in H. now rewrite Z.eqb_eq in H. Qed.

Lemma gid_inj gs g g' : NoDup (map gid gs) -> In g gs -> In g' gs -> gid g = gid g' -> g = g'.
Proof.
  induction gs as [|x gs IH]; cbn [map]; intros N H H' E; [inversion H|]. inversion N as [|? ? N1 N2]; subst.
  destruct H as [->|H]; destruct H' as [->|H']; try reflexivity.
  - exfalso. apply N1. rewrite E. now apply in_map.
  - exfalso. apply N1. rewrite <- E. now apply in_map.
  - now apply IH.
Qed.

Lemma find_group_some s id g : NoDup (map gid (groups s)) -> In g (groups s) -> gid g = id -> findGroup s id = Some g.
Proof.
  intros N H E. unfold findGroup. destruct (find (fun x => gid x =? id) (groups s)) as [y|] eqn:F.
  - apply find_some in F. destruct F as [F1 F2]. apply Z.eqb_eq in F2. f_equal. apply (gid_inj (groups s)); auto. lia.
  - exfalso. pose proof (find_none _ _ F g H) as X. cbn in X. apply Z.eqb_neq in X. contradiction.
Qed.

(** ** The invariant *)
Section Inv.
Variable t : torrentInfo.
Variable size : Z.
Hypothesis LO : laid_out t.
Hypothesis SZ : 16384 <= size < 9223372036854775808.
Let ps := pieceSize t.

Definition group_ok (g : group) : Prop :=
  zlen (gbuf g) = size /\ 0 <= gpos g <= size /\ (gblocks g = [] -> gpos g = 0) /\
  Forall (fun c => 0 <= cpos c /\ cpos c + blength (cinfo c) <= gpos g /\ standard t (cinfo c)) (gblocks g).

Definition cached (s : cache) (g : group) (c : cblock) : Prop := In g (groups s) /\ In c (gblocks g).

Record inv (img : Z -> Z) (s : cache) : Prop := {
  I_ids : NoDup (map gid (groups s));
  I_next : Forall (fun g => gid g < nextId s) (groups s);
  I_grp : Forall group_ok (groups s);
  I_nodup : NoDup (posted s ++ written s);
  I_tasks : forall id, In id (posted s ++ written s) -> exists g, In g (groups s) /\ gid g = id /\ gblocks g <> [];
  I_full : forall g, In g (groups s) -> full g = true -> In (gid g) (posted s ++ written s);
  I_cached : forall g c x, cached s g c -> covers ps (cinfo c) x -> zn (cdata g c) (x - block_start ps (cinfo c)) = img x;
  I_disk : forall x, 0 <= x < fullSize t -> (forall g c, cached s g c -> ~ covers ps (cinfo c) x) -> zn (bytes_of (cdisk s)) x = img x;
  I_written : forall g c x, cached s g c -> In (gid g) (written s) -> covers ps (cinfo c) x -> zn (bytes_of (cdisk s)) x = img x;
  I_alloc : allocated (files t) (cdisk s) }.

Lemma full_spec g : group_ok g -> (full g = true <-> size - gpos g < 16384).
Proof using SZ.
  intros (G1 & G2 & _). unfold full, u64, BlockMaxSize. rewrite G1, Z.mod_small by lia. apply Z.ltb_lt.
Qed.

Lemma cdata_len g c : group_ok g -> In c (gblocks g) -> zlen (cdata g c) = blength (cinfo c).
Proof using LO SZ.
  intros (G1 & G2 & G3 & G4) H. rewrite Forall_forall in G4. destruct (G4 c H) as (C1 & C2 & C3).
  pose proof (standard_facts t _ LO C3) as F. unfold cdata. rewrite zlen_slice, G1. lia.
Qed.

Lemma inv_ext img img' s : (forall x, img x = img' x) -> inv img s -> inv img' s.
Proof using. intros E [H1 H2 H3 H4 H5 H6 H7 H8 H9 H10]. constructor; auto; intros; rewrite <- E; eauto. Qed.

(** *** A new group *)
Lemma add_group img s : inv img s -> 
  inv img {| groups := {| gid := nextId s; gbuf := repeat 0 (Z.to_nat size); gpos := 0; gblocks := [] |} :: groups s; 
             nextId := nextId s + 1; posted := posted s; written := written s; cdisk := cdisk s |}.
Proof using SZ.
  intros [H1 H2 H3 H4 H5 H6 H7 H8 H9 H10].
  assert (OKg : group_ok {| gid := nextId s; gbuf := repeat 0 (Z.to_nat size); gpos := 0; gblocks := [] |}).
  { unfold group_ok. cbn. split; [unfold zlen; rewrite repeat_length; lia|]. split; [lia|]. split; [reflexivity|constructor]. }
  constructor; cbn [groups nextId posted written cdisk map gid].
  - constructor; [|assumption]. intros K. apply in_map_iff in K. destruct K as (g & E & K). rewrite Forall_forall in H2. specialize (H2 g K). lia.
  - constructor; [cbn; lia|]. eapply Forall_impl; [|exact H2]. cbn. intros; lia.
  - now constructor.
  - assumption.
  - intros id K. destruct (H5 id K) as (g & G1 & G2 & G3). exists g. cbn. auto.
  - intros g [<-|K] F; [|auto]. apply full_spec in F; [|assumption]. cbn in F. lia.
  - intros g c x [[<-|K] K2]; [contradiction K2|]. apply H7. now split.
  - intros x Hx K. apply H8; [assumption|]. intros g c [K1 K2]. apply (K g c). split; [now right|assumption].
  - intros g c x [[<-|K] K2]; [contradiction K2|]. intros. apply (H9 g c x); auto. now split.
  - assumption.
Qed.

(** *** A block in a group *)
Definition paint (img : Z -> Z) (b : blockData) (x : Z) : Z :=
  if coversb ps (binfo b) x then zn (bdata b) (x - block_start ps (binfo b)) else img x.

Lemma store_at img s before g0 after b : inv img s -> groups s = before ++ g0 :: after -> full g0 = false ->
  standard t (binfo b) -> zlen (bdata b) = blength (binfo b) -> consistent t s b -> settled s ->
  exists buf, fill (gbuf g0) (gpos g0) (bdata b) = Ok buf /\
    let g := {| gid := gid g0; gbuf := buf; gpos := gpos g0 + zlen (bdata b); gblocks := gblocks g0 ++ [{| cpos := gpos g0; cinfo := binfo b |}] |} in
    inv (paint img b) {| groups := before ++ g :: after; nextId := nextId s; posted := posted s ++ posts g; written := written s; cdisk := cdisk s |}.
Proof using LO SZ.
  intros I E F0 S B Cc Se. destruct I as [H1 H2 H3 H4 H5 H6 H7 H8 H9 H10].
  pose proof (standard_facts t _ LO S) as (S1 & S2 & S3 & S4 & S5 & S6 & S7 & S8).
  assert (In0 : In g0 (groups s)) by (rewrite E; apply in_or_app; right; now left).
  assert (G0 : group_ok g0) by (rewrite Forall_forall in H3; auto).
  assert (R0 : 16384 <= size - gpos g0).
  { destruct (Z_lt_ge_dec (size - gpos g0) 16384) as [K|K]; [|lia]. apply (full_spec g0 G0) in K. congruence. }
  pose proof G0 as (G1 & G2 & G3 & G4).
  destruct (fill_ok (gbuf g0) (gpos g0) (bdata b)) as (buf & B1 & B2 & B3); [lia|lia|].
  exists buf. split; [assumption|]. intros g.
  assert (NT : ~ In (gid g0) (posted s ++ written s)) by (intros K; specialize (Se g0 In0 K); congruence).
  assert (Gg : group_ok g).
  { unfold group_ok, g. cbn [gbuf gpos gblocks]. split; [lia|]. split; [lia|]. split; [intros K; destruct (gblocks g0); discriminate|].
    apply Forall_app. split; [eapply Forall_impl; [|exact G4]; cbn; intros c (C1 & C2 & C3); split; [assumption|split; [lia|assumption]]|].
    constructor; [|constructor]. cbn. split; [lia|]. split; [lia|assumption]. }
  assert (OLD : forall c, In c (gblocks g0) -> cdata g c = cdata g0 c).
  { intros c Hc. rewrite Forall_forall in G4. destruct (G4 c Hc) as (C1 & C2 & C3). pose proof (standard_facts t _ LO C3) as (_ & _ & L3 & _).
    unfold cdata, g. cbn [gbuf]. apply list_zn_ext; [rewrite !zlen_slice; lia|]. intros i Hi. rewrite zlen_slice in Hi. rewrite !zn_slice by lia. rewrite B3 by lia.
    destruct (Z.leb_spec (gpos g0) (Z.of_nat (Z.to_nat (cpos c)) + i)); [lia|reflexivity]. }
  assert (NEW : cdata g {| cpos := gpos g0; cinfo := binfo b |} = bdata b).
  { unfold cdata, g. cbn [gbuf cpos cinfo]. apply list_zn_ext; [rewrite zlen_slice; lia|]. intros i Hi. rewrite zlen_slice in Hi. rewrite zn_slice by lia. rewrite B3 by lia.
    destruct (Z.leb_spec (gpos g0) (Z.of_nat (Z.to_nat (gpos g0)) + i)); [|lia]. destruct (Z.ltb_spec (Z.of_nat (Z.to_nat (gpos g0)) + i) (gpos g0 + zlen (bdata b))); [|lia].
    cbn [andb]. f_equal. lia. }
  assert (OTH : forall g', In g' (before ++ g :: after) -> g' = g \/ (In g' (groups s) /\ g' <> g0)).
  { intros g' K. rewrite E in H1. rewrite E. apply in_app_or in K. rewrite map_app in H1. cbn [map] in H1.
    assert (NB : forall y, In y (before ++ after) -> y <> g0).
    { intros y Hy ->. apply NoDup_remove_2 in H1. apply H1. rewrite <- map_app. now apply in_map. }
    destruct K as [K|[K|K]].
    - right. split; [apply in_or_app; now left|apply NB; apply in_or_app; now left].
    - now left.
    - right. split; [apply in_or_app; right; now right|apply NB; apply in_or_app; now right]. }
  assert (INC : forall g', In g' (groups s) -> g' <> g0 -> In g' (before ++ g :: after)).
  { intros g' K N. rewrite E in K. apply in_app_or in K. apply in_or_app. destruct K as [K|[K|K]]; [now left|congruence|right; now right]. }
  assert (OV : forall g' c x, cached s g' c -> covers ps (cinfo c) x -> zn (cdata g' c) (x - block_start ps (cinfo c)) = paint img b x).
  { intros g' c x K Cx. unfold paint. destruct (coversb ps (binfo b) x) eqn:Q; [|now apply H7]. apply coversb_spec in Q. apply (Cc g' c x); auto; apply K. }
  assert (PERM : forall id, In id ((posted s ++ posts g) ++ written s) <-> In id (posts g) \/ In id (posted s ++ written s)).
  { intros id. rewrite !in_app_iff. tauto. }
  constructor; cbn [groups nextId posted written cdisk].
  - rewrite E in H1. rewrite map_app in *. exact H1.
  - rewrite E in H2. apply Forall_app in H2. destruct H2 as [X Y]. inversion Y; subst. apply Forall_app. split; [assumption|]. now constructor.
  - rewrite E in H3. apply Forall_app in H3. destruct H3 as [X Y]. inversion Y; subst. apply Forall_app. split; [assumption|]. now constructor.
  - unfold posts. destruct (full g); [|now rewrite app_nil_r]. rewrite <- app_assoc. cbn [app].
    apply (Permutation_NoDup (l := gid g :: posted s ++ written s)); [apply Permutation_middle|]. now constructor.
  - intros id K. apply PERM in K. destruct K as [K|K].
    + unfold posts in K. destruct (full g); [|contradiction]. destruct K as [<-|[]]. exists g. split; [apply in_or_app; right; now left|]. split; [reflexivity|].
      unfold g. cbn [gblocks]. intros K. now destruct (gblocks g0).
    + destruct (H5 id K) as (g' & X & Y & Z0). exists g'. split; [|auto]. apply INC; [assumption|]. intros ->. apply NT. now rewrite Y.
  - intros g' K Fg. apply PERM. destruct (OTH g' K) as [->|[K1 K2]]; [left; unfold posts; rewrite Fg; now left|right; auto].
  - intros g' c x [K Kc] Cx. destruct (OTH g' K) as [->|[K1 K2]]; [|apply OV; [now split|assumption]].
    unfold g in Kc. cbn [gblocks] in Kc. apply in_app_or in Kc. destruct Kc as [Kc|[<-|[]]].
    + rewrite OLD by assumption. apply OV; [now split|assumption].
    + rewrite NEW. cbn [cinfo] in *. unfold paint. apply coversb_spec in Cx. now rewrite Cx.
  - intros x Hx K. unfold paint. destruct (coversb ps (binfo b) x) eqn:Q.
    + exfalso. apply coversb_spec in Q. apply (K g {| cpos := gpos g0; cinfo := binfo b |}); [|assumption]. split; [apply in_or_app; right; now left|].
      unfold g. cbn [gblocks]. apply in_or_app. right. now left.
    + apply H8; [assumption|]. intros g' c [K1 K2] Cx.
      assert (D : g' = g0 \/ g' <> g0).
      { destruct (Z.eq_dec (gid g') (gid g0)) as [D|D]; [left; now apply (gid_inj (groups s))|right; congruence]. }
      destruct D as [->|D]; [|apply (K g' c); [split; [now apply INC|assumption]|assumption]].
      apply (K g c); [|assumption]. split; [apply in_or_app; right; now left|]. unfold g. cbn [gblocks]. apply in_or_app. now left.
  - intros g' c x [K Kc] W Cx. destruct (OTH g' K) as [->|[K1 K2]].
    + exfalso. apply NT. apply in_or_app. right. exact W.
    + rewrite <- (OV g' c x) by (try assumption; now split). rewrite (H7 g' c x) by (try assumption; now split). apply (H9 g' c x); auto. now split.
  - assumption.
Qed.

Lemma place_spec b gs : match place b gs with
  | None => Forall (fun g => full g = true) gs
  | Some r => exists before g after, gs = before ++ g :: after /\ full g = false /\
      r = bind (fill (gbuf g) (gpos g) (bdata b)) (fun buf =>
        Ok ({| gid := gid g; gbuf := buf; gpos := gpos g + zlen (bdata b);
               gblocks := gblocks g ++ [{| cpos := gpos g; cinfo := binfo b |}] |}, before, after))
  end.
Proof using.
  induction gs as [|g gs IH]; cbn [place]; [constructor|]. destruct (full g) eqn:F.
  - destruct (place b gs) as [r|]; [|now constructor]. destruct IH as (before & g1 & after & -> & F1 & ->).
    destruct (fill (gbuf g1) (gpos g1) (bdata b)) as [buf|] eqn:FE; cbn [bind]; exists (g :: before), g1, after; rewrite FE; now repeat split.
  - exists [], g, gs. now repeat split.
Qed.

Lemma store_ok img s b : inv img s -> standard t (binfo b) -> zlen (bdata b) = blength (binfo b) -> consistent t s b -> settled s ->
  exists s', storeBlock size s b = Ok s' /\ inv (paint img b) s' /\
    (forall g c, cached s' g c -> cinfo c = binfo b \/ exists g0, cached s g0 c) /\
    (forall g0 c, cached s g0 c -> exists g, cached s' g c).
Proof using LO SZ.
  intros I S B Cc Se. unfold storeBlock. pose proof (place_spec b (groups s)) as P. destruct (place b (groups s)) as [r|].
  - destruct P as (before & g & after & E & F & ->). destruct (store_at img s before g after b I E F S B Cc Se) as (buf & B1 & B2).
    rewrite B1. cbn [bind]. eexists. split; [reflexivity|]. split; [exact B2|]. unfold cached. cbn [groups]. rewrite E. split.
    + intros g' c [K Kc]. apply in_app_or in K. destruct K as [K|[<-|K]].
      * right. exists g'. split; [apply in_or_app; now left|assumption].
      * cbn [gblocks] in Kc. apply in_app_or in Kc. destruct Kc as [Kc|[<-|[]]]; [right; exists g; split; [apply in_or_app; right; now left|assumption]|now left].
      * right. exists g'. split; [apply in_or_app; right; now right|assumption].
    + intros g0 c [K Kc]. apply in_app_or in K. destruct K as [K|[<-|K]].
      * exists g0. split; [apply in_or_app; now left|assumption].
      * eexists. split; [apply in_or_app; right; now left|]. cbn [gblocks]. apply in_or_app. now left.
      * exists g0. split; [apply in_or_app; right; now right|assumption].
  - pose proof (add_group img s I) as I2. set (g0 := {| gid := nextId s; gbuf := repeat 0 (Z.to_nat size); gpos := 0; gblocks := [] |}) in *.
    match type of I2 with inv _ ?q => set (s1 := q) in * end.
    assert (F0 : full g0 = false).
    { destruct (full g0) eqn:F; [|reflexivity]. apply full_spec in F; [cbn in F; lia|]. destruct I2 as [_ _ X _ _ _ _ _ _ _]. cbn in X. now inversion X. }
    destruct (store_at img s1 [] g0 (groups s) b I2 eq_refl F0 S B) as (buf & B1 & B2).
    + intros g c x [<-|K] Kc; [contradiction Kc|]. now apply (Cc g c x).
    + intros g [<-|K] W; [exfalso|now apply Se]. cbn in W. destruct I as [_ X _ _ Y _ _ _ _ _]. destruct (Y (nextId s) W) as (g & Y1 & Y2 & _).
      rewrite Forall_forall in X. specialize (X g Y1). lia.
    + change (gbuf g0) with (gbuf g0) in B1. cbn [gpos g0] in B1. cbv zeta. rewrite B1. cbn [bind]. eexists. split; [reflexivity|]. split; [exact B2|].
      unfold cached. cbn [groups]. split.
      * intros g c [[<-|K] Kc]; [|right; exists g; now split]. cbn [gblocks] in Kc. destruct Kc as [<-|[]]. now left.
      * intros g c [K Kc]. exists g. split; [now right|assumption].
Qed.

(** *** Flushes *)
Lemma flushAll_ok img s : inv img s -> settled s -> inv img (flushAll s).
Proof using SZ.
  intros [H1 H2 H3 H4 H5 H6 H7 H8 H9 H10] Se. unfold flushAll.
  set (fl := map gid _).
  assert (FL : forall id, In id fl -> exists g, In g (groups s) /\ gid g = id /\ gblocks g <> [] /\ full g = false).
  { intros id K. unfold fl in K. apply in_map_iff in K. destruct K as (g & E & K). apply filter_In in K. destruct K as [K1 K2]. apply andb_true_iff in K2.
    destruct K2 as [K2 K3]. apply negb_true_iff in K2. exists g. split; [assumption|]. split; [assumption|]. split; [|assumption]. intros Z0. rewrite Z0 in K3. discriminate. }
  assert (NF : NoDup fl).
  { unfold fl. clear -H1. induction (groups s) as [|g gs IH]; [constructor|]. cbn [map] in H1. inversion H1; subst. cbn [filter].
    destruct (negb (full g) && _); [|now apply IH]. cbn [map]. constructor; [|now apply IH]. intros K. apply in_map_iff in K. destruct K as (y & E & K).
    apply filter_In in K. apply H2. rewrite <- E. apply in_map. apply K. }
  assert (D : forall id, In id fl -> ~ In id (posted s ++ written s)).
  { intros id K W. destruct (FL id K) as (g & G1 & G2 & G3 & G4). subst id. specialize (Se g G1 W). congruence. }
  assert (P : Permutation ((posted s ++ fl) ++ written s) (fl ++ (posted s ++ written s))).
  { rewrite (Permutation_app_comm (posted s) fl). now rewrite app_assoc. }
  constructor; cbn [groups nextId posted written cdisk]; auto.
  - apply (Permutation_NoDup (Permutation_sym P)). clear - NF H4 D. induction fl as [|x l IH]; [assumption|]. cbn [app]. inversion NF; subst. constructor.
    + intros K. apply in_app_or in K. destruct K as [K|K]; [contradiction|]. apply (D x); [now left|assumption].
    + apply IH; [assumption|]. intros id K. apply D. now right.
  - intros id K. apply (Permutation_in _ P) in K. apply in_app_or in K. destruct K as [K|K]; [|auto]. destruct (FL id K) as (g & G1 & G2 & G3 & _). exists g. auto.
  - intros g K F. apply (Permutation_in _ (Permutation_sym P)). apply in_or_app. right. auto.
Qed.

Lemma covered_dec (l : list blockData) x : (exists b, In b l /\ covers ps (binfo b) x) \/ (forall b, In b l -> ~ covers ps (binfo b) x).
Proof using SZ.
  destruct (existsb (fun b => coversb ps (binfo b) x) l) eqn:E.
  - left. apply existsb_exists in E. destruct E as (b & B1 & B2). apply coversb_spec in B2. now exists b.
  - right. intros b Hb Cx. apply coversb_spec in Cx. assert (X : existsb (fun b => coversb ps (binfo b) x) l = true) by (apply existsb_exists; now exists b). congruence.
Qed.

Lemma write_ok img s id : inv img s -> exists s', flushWrite t s id = Ok s' /\ inv img s' /\ groups s' = groups s.
Proof using LO SZ.
  intros I. unfold flushWrite. destruct (memId id (posted s)) eqn:M; [|now exists s]. apply memId_In in M. pose proof I as [H1 H2 H3 H4 H5 H6 H7 H8 H9 H10].
  destruct (H5 id) as (g & G1 & G2 & G3); [apply in_or_app; now left|]. rewrite (find_group_some s id g H1 G1 G2).
  set (bs := map (loaded g) (gblocks g)).
  assert (Gok : group_ok g) by (rewrite Forall_forall in H3; auto). pose proof Gok as (K1 & K2 & K3 & K4). rewrite Forall_forall in K4.
  assert (INb : forall b, In b bs -> exists c, In c (gblocks g) /\ b = loaded g c).
  { intros b Hb. unfold bs in Hb. apply in_map_iff in Hb. destruct Hb as (c & <- & Hc). now exists c. }
  assert (V : forall b x, In b bs -> covers ps (binfo b) x -> zn (bdata b) (x - block_start ps (binfo b)) = img x).
  { intros b x Hb Cx. destruct (INb b Hb) as (c & Hc & ->). cbn [loaded bdata binfo] in *. apply H7; [now split|assumption]. }
  destruct (C18_store_partial t (cdisk s) bs LO H10) as (d' & D1 & D2 & D3 & D4).
  - unfold bs. destruct (gblocks g); [contradiction|discriminate].
  - apply Forall_forall. intros b Hb. destruct (INb b Hb) as (c & Hc & ->). destruct (K4 c Hc) as (_ & _ & Sc). pose proof (standard_facts t _ LO Sc) as F.
    unfold block_ok. cbn [loaded bdata binfo]. rewrite (cdata_len g c Gok Hc). lia.
  - intros b b' x Hb Hb' Cx Cx'. fold ps in Cx, Cx' |- *. rewrite (V b x Hb Cx), (V b' x Hb' Cx'). reflexivity.
  - intros b Hb. destruct (INb b Hb) as (c & Hc & ->). destruct (K4 c Hc) as (_ & _ & Sc). pose proof (standard_facts t _ LO Sc) as F. cbn [loaded binfo]. apply F.
  - rewrite D1. cbn [bind]. eexists. split; [reflexivity|]. split; [|reflexivity].
    assert (FB : zlen (bytes_of (cdisk s)) = fullSize t).
    { destruct (laid_out_ok t LO) as (L1 & L2 & L3 & L4). destruct (laid_length (pieceSize t) (files t) 0 (cdisk s)) as [_ ->]; [now apply laid_intro|]. now rewrite L4. }
    assert (P : Permutation (takeId id (posted s) ++ written s ++ [id]) (posted s ++ written s)).
    { rewrite app_assoc. rewrite Permutation_app_comm. cbn [app]. rewrite app_comm_cons. now apply Permutation_app_tail, take_perm. }
    assert (RNG : forall g' c x, cached s g' c -> covers ps (cinfo c) x -> 0 <= x < fullSize t).
    { intros g' c x [Kg Kc] Cx. rewrite Forall_forall in H3. destruct (H3 g' Kg) as (_ & _ & _ & Q). rewrite Forall_forall in Q. destruct (Q c Kc) as (_ & _ & Sc).
      pose proof (standard_facts t _ LO Sc) as F. unfold covers in Cx. fold ps in F. lia. }
    constructor; cbn [groups nextId posted written cdisk]; auto.
    + now apply (Permutation_NoDup (Permutation_sym P)).
    + intros i K. apply H5. now apply (Permutation_in _ P).
    + intros g' K F. apply (Permutation_in _ (Permutation_sym P)). auto.
    + intros x Hx K. rewrite <- H8 by assumption. destruct (D4 x) as [_ D5]; [lia|]. apply D5. intros b Hb Cx. destruct (INb b Hb) as (c & Hc & ->). now apply (K g c).
    + intros g' c x K W Cx. pose proof (RNG g' c x K Cx) as Rx. destruct (D4 x) as [D5 D6]; [lia|].
      destruct (covered_dec bs x) as [(b & Hb & Cb)|N]; [rewrite (D5 b Hb Cb); now apply V|].
      apply in_app_or in W. destruct W as [W|[W|[]]].
      * rewrite D6 by assumption. now apply (H9 g' c x).
      * exfalso. assert (g' = g) as -> by (apply (gid_inj (groups s)); auto; [apply K|congruence]). apply (N (loaded g c)); [|exact Cx].
        unfold bs. apply in_map. apply K.
Qed.

Lemma clear_ok img s id : inv img s -> exists s', flushClear s id = Ok s' /\ inv img s' /\
  (forall g c, cached s' g c -> cached s g c).
Proof using LO SZ.
  intros I. unfold flushClear. destruct (memId id (written s)) eqn:M; [|exists s; auto]. apply memId_In in M. pose proof I as [H1 H2 H3 H4 H5 H6 H7 H8 H9 H10].
  destruct (H5 id) as (g & G1 & G2 & G3); [apply in_or_app; now right|]. rewrite (find_group_some s id g H1 G1 G2).
  eexists. split; [reflexivity|]. 
  set (ge := {| gid := gid g; gbuf := gbuf g; gpos := 0; gblocks := [] |}). set (fl := filter (fun x => negb (gid x =? id)) (groups s)).
  assert (FI : forall g', In g' fl <-> In g' (groups s) /\ gid g' <> id).
  { intros g'. unfold fl. rewrite filter_In, negb_true_iff, Z.eqb_neq. reflexivity. }
  assert (CS : forall g' c, In g' (fl ++ [ge]) -> In c (gblocks g') -> cached s g' c /\ gid g' <> id).
  { intros g' c K Kc. apply in_app_or in K. destruct K as [K|[<-|[]]]; [|contradiction Kc]. apply FI in K. split; [split; [apply K|assumption]|apply K]. }
  assert (Gok : group_ok g) by (rewrite Forall_forall in H3; auto).
  assert (P : Permutation (id :: posted s ++ takeId id (written s)) (posted s ++ written s)).
  { rewrite Permutation_middle. apply Permutation_app_head. now apply take_perm. }
  assert (ND : NoDup (id :: posted s ++ takeId id (written s))) by now apply (Permutation_NoDup (Permutation_sym P)).
  split.
  - constructor; cbn [groups nextId posted written cdisk].
    + rewrite map_app. cbn [map gid ge]. apply (Permutation_NoDup (l := gid g :: map gid fl)); [apply Permutation_cons_append|]. constructor.
      * intros K. apply in_map_iff in K. destruct K as (y & E & K). apply FI in K. destruct K. congruence.
      * unfold fl. clear -H1. induction (groups s) as [|x gs IH]; [constructor|]. cbn [map] in H1. inversion H1; subst. cbn [filter].
        destruct (negb _); [|now apply IH]. cbn [map]. constructor; [|now apply IH]. intros K. apply in_map_iff in K. destruct K as (y & E & K). apply filter_In in K.
        apply H2. rewrite <- E. apply in_map. apply K.
    + apply Forall_app. split; [apply Forall_forall; intros y Hy; apply FI in Hy; rewrite Forall_forall in H2; now apply H2|]. constructor; [|constructor].
      rewrite Forall_forall in H2. exact (H2 g G1).
    + apply Forall_app. split; [apply Forall_forall; intros y Hy; apply FI in Hy; rewrite Forall_forall in H3; now apply H3|]. constructor; [|constructor].
      destruct Gok as (K1 & K2 & _). unfold group_ok, ge. cbn. split; [assumption|]. split; [lia|]. split; [reflexivity|constructor].
    + now inversion ND.
    + intros i K. assert (N : i <> id) by (inversion ND; subst; congruence).
      destruct (H5 i) as (g' & X & Y & Z0); [apply (Permutation_in _ P); now right|]. exists g'. split; [|auto]. apply in_or_app. left. apply FI. split; [assumption|congruence].
    + intros g' K F. apply in_app_or in K. destruct K as [K|[<-|[]]].
      * apply FI in K. destruct K as [K N]. pose proof (H6 g' K F) as W. apply (Permutation_in _ (Permutation_sym P)) in W. destruct W as [W|W]; [congruence|assumption].
      * exfalso. apply full_spec in F; [cbn in F; lia|]. destruct Gok as (K1 & K2 & _). unfold group_ok, ge. cbn. split; [assumption|]. split; [lia|]. split; [reflexivity|constructor].
    + intros g' c x [K Kc] Cx. apply H7; [|assumption]. now apply CS.
    + intros x Hx K. destruct (covered_dec (map (loaded g) (gblocks g)) x) as [(b & Hb & Cb)|N].
      * apply in_map_iff in Hb. destruct Hb as (c & <- & Hc). apply (H9 g c x); [now split|now rewrite G2|exact Cb].
      * apply H8; [assumption|]. intros g' c [Kg Kc] Cx. destruct (Z.eq_dec (gid g') id) as [E|E].
        -- assert (g' = g) as -> by (apply (gid_inj (groups s)); auto; congruence). apply (N (loaded g c)); [now apply in_map|exact Cx].
        -- apply (K g' c); [|assumption]. split; [|assumption]. cbn [groups]. apply in_or_app. left. apply FI. now split.
    + intros g' c x [K Kc] W Cx. destruct (CS g' c K Kc) as [X Y]. apply (H9 g' c x); auto.
      assert (Z0 : In (gid g') (id :: takeId id (written s))) by now right. apply (Permutation_in _ (take_perm id (written s) M)) in Z0. exact Z0.
    + assumption.
  - intros g' c [K Kc]. now apply CS.
Qed.

Lemma end_ok img s : inv img s -> posted s = [] -> written s = [] -> (forall g, In g (groups s) -> gblocks g = []) -> inv img (clearAll s).
Proof using.
  intros [H1 H2 H3 H4 H5 H6 H7 H8 H9 H10] P W E. unfold clearAll. constructor; cbn [groups nextId posted written cdisk]; try constructor; try assumption.
  - rewrite P, W. intros id [].
  - intros g [].
  - intros g c x [[] _].
  - intros x Hx _. apply H8; [assumption|]. intros g c [K Kc]. rewrite (E g K) in Kc. contradiction Kc.
  - intros g c x [[] _].
Qed.

Lemma empty_ok disk : allocated (files t) disk -> inv (zn (bytes_of disk)) (empty_cache disk).
Proof using.
  intros A. constructor; cbn; try constructor; try assumption; try (intros; contradiction); try reflexivity.
  all: intros ? ? ? [[] _].
Qed.

(** *** Runs *)
Lemma step_inv img s e : inv img s -> allowed t s e -> exists s', step t size s e = Ok s' /\ inv (fun x => overlay ps (stores [e]) x (img x)) s'.
Proof using LO SZ.
  intros I A. destruct e as [b|id|id| |]; cbn [step allowed stores flat_map app] in *.
  - destruct A as (A1 & A2 & A3 & A4). destruct (store_ok img s b I A1 A2 A3 A4) as (s' & S1 & S2 & _). exists s'. split; [assumption|]. exact S2.
  - destruct (write_ok img s id I) as (s' & S1 & S2 & _). exists s'. now split.
  - destruct (clear_ok img s id I) as (s' & S1 & S2 & _). exists s'. now split.
  - exists (flushAll s). split; [reflexivity|]. now apply flushAll_ok.
  - exists (clearAll s). split; [reflexivity|]. destruct A as (A1 & A2 & A3). now apply end_ok.
Qed.

Lemma overlay_app a b x v : overlay ps (a ++ b) x v = overlay ps b x (overlay ps a x v).
Proof using. unfold overlay. apply fold_left_app. Qed.

Lemma run_inv es : forall img s, inv img s -> calm t size s es ->
  exists s', run t size s es = Ok s' /\ inv (fun x => overlay ps (stores es) x (img x)) s'.
Proof using LO SZ.
  induction es as [|e es IH]; intros img s I C; cbn [run]; [exists s; now split|]. destruct C as [A C].
  destruct (step_inv img s e I A) as (s1 & S1 & S2). rewrite S1. cbn [bind]. destruct (IH _ s1 S2 (C s1 S1)) as (s2 & R1 & R2). exists s2. split; [assumption|].
  eapply inv_ext; [|exact R2]. intros x. cbn beta. rewrite <- overlay_app. f_equal. unfold stores. cbn [flat_map]. now rewrite app_nil_r.
Qed.

Lemma calm_app es1 : forall es2 s, calm t size s (es1 ++ es2) -> calm t size s es1 /\ forall s', run t size s es1 = Ok s' -> calm t size s' es2.
Proof using.
  induction es1 as [|e es1 IH]; intros es2 s C.
  - split; [exact I|]. intros s' E. inversion E. now subst.
  - cbn [app calm] in C. destruct C as [A C]. split.
    + split; [assumption|]. intros s' E. now apply (IH es2 s'), C.
    + intros s' E. cbn [run] in E. destruct (step t size s e) as [s1|] eqn:S1; [|discriminate]. cbn [bind] in E. now apply (IH es2 s1 (C s1 eq_refl)).
Qed.

(** Places which are not cached stay so while nothing is stored there. *)
Lemma uncached es : forall img s x, inv img s -> calm t size s es -> (forall g c, cached s g c -> ~ covers ps (cinfo c) x) ->
  (forall b, In b (stores es) -> ~ covers ps (binfo b) x) -> forall s', run t size s es = Ok s' -> forall g c, cached s' g c -> ~ covers ps (cinfo c) x.
Proof using LO SZ.
  induction es as [|e es IH]; intros img s x I C U N s' R; cbn [run] in R; [inversion R; now subst|].
  destruct C as [A C]. destruct (step_inv img s e I A) as (s1 & S1 & S2). rewrite S1 in R. cbn [bind] in R.
  apply (IH _ s1 x S2 (C s1 S1)); [|intros b Hb; apply N; unfold stores; cbn [flat_map]; apply in_or_app; now right|assumption].
  intros g c K. destruct e as [b|id|id| |]; cbn [step allowed] in *.
  - destruct A as (A1 & A2 & A3 & A4). destruct (store_ok img s b I A1 A2 A3 A4) as (s2 & X1 & _ & X3 & _). rewrite X1 in S1. inversion S1; subst s2.
    destruct (X3 g c K) as [->|(g0 & K0)]; [apply N; now left|now apply (U g0 c)].
  - destruct (write_ok img s id I) as (s2 & X1 & _ & X3). rewrite X1 in S1. inversion S1; subst s2. apply (U g c). unfold cached in *. now rewrite X3 in K.
  - destruct (clear_ok img s id I) as (s2 & X1 & _ & X3). rewrite X1 in S1. inversion S1; subst s2. apply (U g c). auto.
  - inversion S1; subst s1. now apply (U g c).
  - inversion S1; subst s1. destruct K as [[] _].
Qed.

(** ** Reading *)
Lemma insert_offset_perm o l : Permutation (insertOffset o l) (o :: l).
Proof using t SZ.
  induction l as [|x l IH]; cbn [insertOffset]; [reflexivity|]. destruct (obegin x <? obegin o); [|reflexivity]. rewrite IH. apply perm_swap.
Qed.

Lemma sort_offsets_perm l : Permutation (sortOffsets l) l.
Proof using t SZ. induction l as [|o l IH]; cbn [sortOffsets]; [reflexivity|]. rewrite insert_offset_perm. now constructor. Qed.

Fixpoint ascending (l : list blockOffset) : Prop :=
  match l with [] => True | o :: l' => Forall (fun x => obegin o <= obegin x) l' /\ ascending l' end.

Lemma insert_ascending o l : ascending l -> ascending (insertOffset o l).
Proof using t SZ.
  induction l as [|x l IH]; intros A; cbn [insertOffset]; [split; [constructor|exact I]|]. destruct A as [A1 A2].
  destruct (Z.ltb_spec (obegin x) (obegin o)).
  - split; [|now apply IH]. rewrite insert_offset_perm. constructor; [lia|assumption].
  - split; [constructor; [lia|eapply Forall_impl; [|exact A1]; cbn; intros; lia]|split; assumption].
Qed.

Lemma sort_ascending l : ascending (sortOffsets l).
Proof using t SZ. induction l as [|o l IH]; [exact I|]. now apply insert_ascending. Qed.

Definition in_off (o : blockOffset) (i : Z) : Prop := obegin o <= i < obegin o + osize o.

(** Ranges of which a later one does not end before an earlier one. *)
Lemma gaps_ok n l : ascending l -> Forall (fun o => 0 <= obegin o /\ 0 < osize o /\ obegin o + osize o <= n) l -> n < 4294967296 ->
  (forall a b, In a l -> In b l -> obegin a <= obegin b -> obegin a + osize a <= obegin b + osize b) ->
  forall pos, 0 <= pos <= n -> Forall (fun o => pos <= obegin o + osize o) l ->
  let '(m, e) := gaps pos l in
  pos <= e <= n /\ Forall (fun o => pos <= obegin o /\ 0 < osize o /\ obegin o + osize o <= e) m /\
  (forall i, pos <= i < n -> ((exists o, In o m /\ in_off o i) \/ e <= i <-> forall o, In o l -> ~ in_off o i)).
Proof using t SZ.
  induction l as [|o l IH]; intros A F Hn M pos Hp Fp; cbn [gaps].
  - split; [lia|]. split; [constructor|]. intros i Hi. split; [intros _ o []|]. intros _. right. lia.
  - destruct A as [A1 A2]. inversion F as [|? ? (F1 & F2 & F3) F']; subst. inversion Fp; subst.
    unfold u32. rewrite Z.mod_small by lia.
    assert (Fe : Forall (fun x => obegin o + osize o <= obegin x + osize x) l).
    { apply Forall_forall. intros x Hx. apply M; [now left|now right|]. rewrite Forall_forall in A1. now apply A1. }
    specialize (IH A2 F' Hn (fun a b Ha Hb => M a b (or_intror Ha) (or_intror Hb)) (obegin o + osize o) ltac:(lia) Fe).
    destruct (gaps (obegin o + osize o) l) as [m e]. destruct IH as (J1 & J2 & J3).
    assert (Q : forall i, i < obegin o -> forall x, In x (o :: l) -> ~ in_off x i).
    { intros i Hi x [<-|Hx]; unfold in_off; [lia|]. rewrite Forall_forall in A1. specialize (A1 x Hx). lia. }
    assert (W : forall i, pos <= i < n -> obegin o <= i -> ((exists o', In o' m /\ in_off o' i) \/ e <= i <-> forall x, In x (o :: l) -> ~ in_off x i)).
    { intros i Hi Ho. destruct (Z_lt_ge_dec i (obegin o + osize o)) as [K|K].
      - split.
        + intros [(x & Hx & Ix)|Hx]; [|lia]. rewrite Forall_forall in J2. destruct (J2 x Hx) as (? & ? & ?). unfold in_off in Ix. lia.
        + intros X. exfalso. apply (X o); [now left|]. unfold in_off. lia.
      - rewrite (J3 i) by lia. split.
        + intros X x [<-|Hx]; [unfold in_off; lia|auto].
        + intros X x Hx. apply X. now right. }
    destruct (Z.gtb_spec (obegin o) pos) as [G|G].
    + split; [lia|]. split; [constructor; [cbn; lia|]|].
      * eapply Forall_impl; [|exact J2]. cbn. intros; lia.
      * intros i Hi. destruct (Z_lt_ge_dec i (obegin o)) as [K|K].
        -- split; [intros _; now apply Q|]. intros _. left. eexists. split; [now left|]. unfold in_off. cbn. lia.
        -- rewrite <- (W i) by lia. split; (intros [(x & Hx & Ix)|Hx]; [|now right]).
           ++ destruct Hx as [<-|Hx]; [unfold in_off in Ix; cbn in Ix; lia|]. left. now exists x.
           ++ left. exists x. split; [now right|assumption].
    + split; [lia|]. split; [eapply Forall_impl; [|exact J2]; cbn; intros; lia|]. intros i Hi. apply W; lia.
Qed.

Lemma cachedOf_In s idx g c : In (g, c) (cachedOf s idx) <-> cached s g c /\ bindex (cinfo c) = idx.
Proof using.
  unfold cachedOf, cached. rewrite in_flat_map. split.
  - intros (g' & G1 & G2). apply in_map_iff in G2. destruct G2 as (c' & E & G2). inversion E; subst g' c'. apply filter_In in G2. destruct G2 as [G2 G3]. apply Z.eqb_eq in G3. exact (conj (conj G1 G2) G3).
  - intros [[G1 G2] G3]. exists g. split; [assumption|]. apply in_map. apply filter_In. rewrite Z.eqb_eq. now split.
Qed.

Lemma copy_ok (img : Z -> Z) n l : forall buffer, zlen buffer = n ->
  (forall g c, In (g, c) l -> 0 <= bbegin (cinfo c) /\ 0 <= blength (cinfo c) /\ bbegin (cinfo c) + blength (cinfo c) <= n /\ zlen (cdata g c) = blength (cinfo c) /\
    forall i, bbegin (cinfo c) <= i < bbegin (cinfo c) + blength (cinfo c) -> zn (cdata g c) (i - bbegin (cinfo c)) = img i) ->
  exists b', copyBlocks l buffer = Ok b' /\ zlen b' = n /\
    forall i, 0 <= i -> ((exists g c, In (g, c) l /\ bbegin (cinfo c) <= i < bbegin (cinfo c) + blength (cinfo c)) -> zn b' i = img i) /\
      ((forall g c, In (g, c) l -> ~ bbegin (cinfo c) <= i < bbegin (cinfo c) + blength (cinfo c)) -> zn b' i = zn buffer i).
Proof using t SZ.
  induction l as [|[g c] l IH]; intros buffer Hb H; cbn [copyBlocks].
  - exists buffer. split; [reflexivity|]. split; [assumption|]. intros i Hi. split; [intros (g & c & [] & _)|reflexivity].
  - destruct (H g c (or_introl eq_refl)) as (C1 & C2 & C3 & C4 & C5).
    destruct (fill_ok buffer (bbegin (cinfo c)) (cdata g c)) as (b1 & F1 & F2 & F3); [lia|lia|]. rewrite F1. cbn [bind].
    destruct (IH b1) as (b2 & G1 & G2 & G3); [lia|intros g' c' K; apply H; now right|]. exists b2. split; [assumption|]. split; [assumption|].
    intros i Hi. destruct (G3 i Hi) as [G4 G5].
    assert (D : (exists g' c', In (g', c') l /\ bbegin (cinfo c') <= i < bbegin (cinfo c') + blength (cinfo c')) \/
                (forall g' c', In (g', c') l -> ~ bbegin (cinfo c') <= i < bbegin (cinfo c') + blength (cinfo c'))).
    { clear. induction l as [|[g1 c1] l IH]; [right; intros ? ? []|].
      destruct (Z_le_dec (bbegin (cinfo c1)) i); [destruct (Z_lt_dec i (bbegin (cinfo c1) + blength (cinfo c1)))|].
      - left. exists g1, c1. split; [now left|lia].
      - destruct IH as [(g' & c' & K1 & K2)|K]; [left; exists g', c'; split; [now right|assumption]|right; intros g' c' [X|X]; [inversion X; subst; lia|now apply (K g' c')]].
      - destruct IH as [(g' & c' & K1 & K2)|K]; [left; exists g', c'; split; [now right|assumption]|right; intros g' c' [X|X]; [inversion X; subst; lia|now apply (K g' c')]]. }
    split.
    + intros (g' & c' & K & Ki). destruct D as [D|D]; [now apply G4|]. rewrite G5 by assumption. destruct K as [K|K]; [|exfalso; now apply (D g' c')].
      inversion K; subst g' c'. rewrite F3 by lia. destruct (Z.leb_spec (bbegin (cinfo c)) i); [|lia]. destruct (Z.ltb_spec i (bbegin (cinfo c) + zlen (cdata g c))); [|lia].
      cbn [andb]. now apply C5.
    + intros K. rewrite G5 by (intros g' c' X; apply (K g' c'); now right). rewrite F3 by lia. specialize (K g c (or_introl eq_refl)).
      destruct (Z.leb_spec (bbegin (cinfo c)) i); destruct (Z.ltb_spec i (bbegin (cinfo c) + zlen (cdata g c))); cbn [andb]; try reflexivity. lia.
Qed.

(** A byte of a piece belongs to blocks of the piece only. *)
Lemma covers_piece i idx x : standard t i -> 0 <= x < ps -> covers ps i (idx * ps + x) -> 0 <= idx -> bindex i = idx /\ bbegin i <= x < bbegin i + blength i.
Proof using LO.
  intros S Hx C Hi. pose proof (standard_facts t _ LO S) as F. fold ps in F. unfold covers, block_start in C.
  assert (P : 0 < ps) by lia.
  assert (E : bindex i = idx).
  { assert (bindex i < idx + 1) by (apply (Z.mul_lt_mono_pos_r ps); lia). assert (idx < bindex i + 1) by (apply (Z.mul_lt_mono_pos_r ps); lia). lia. }
  subst idx. lia.
Qed.

Lemma piece_covers i x : bbegin i <= x < bbegin i + blength i -> covers ps i (bindex i * ps + x).
Proof using. unfold covers, block_start. lia. Qed.

Lemma read_ok img es s idx buffer : inv img s -> calm t size s es -> 0 <= idx -> idx * ps < fullSize t -> zlen buffer = getPieceSize t idx ->
  (forall b, In b (stores es) -> bindex (binfo b) <> idx) ->
  exists s' b, run t size s es = Ok s' /\ readPiece t s s' idx buffer = Ok (Success, b) /\ zlen b = getPieceSize t idx /\
    forall i, 0 <= i < getPieceSize t idx -> zn b i = img (idx * ps + i).
Proof using LO SZ.
  intros I C Hi Hf Hb Nst. destruct (laid_out_piece t idx LO Hi Hf) as (P1 & P2 & P3). fold ps in P1, P3. rewrite P1 in *. set (n := size_of_piece ps (fullSize t) idx) in *.
  assert (Hn : 0 < n <= ps) by (unfold n, size_of_piece; lia). assert (Hn2 : idx * ps + n <= fullSize t) by (unfold n, size_of_piece; lia).
  destruct (run_inv es img s I C) as (s' & R1 & R2). exists s'. pose proof I as [H1 H2 H3 H4 H5 H6 H7 H8 H9 H10].
  assert (I0 : 0 <= idx * ps) by (apply Z.mul_nonneg_nonneg; lia).
  assert (ST : forall g c, cached s g c -> standard t (cinfo c) /\ zlen (cdata g c) = blength (cinfo c)).
  { intros g c [K Kc]. rewrite Forall_forall in H3. pose proof (H3 g K) as G. split; [|now apply cdata_len].
    destruct G as (_ & _ & _ & G). rewrite Forall_forall in G. now apply (G c Kc). }
  set (l := cachedOf s idx).
  assert (Lin : forall g c, In (g, c) l -> 0 <= bbegin (cinfo c) /\ 0 < blength (cinfo c) /\ bbegin (cinfo c) + blength (cinfo c) <= n /\ cached s g c /\ bindex (cinfo c) = idx).
  { intros g c K. apply cachedOf_In in K. destruct K as [K1 K2]. destruct (ST g c K1) as [S1 _]. pose proof (standard_facts t _ LO S1) as F. rewrite K2 in F. fold ps n in F. lia || (repeat split; try lia; try assumption; apply K1). }
  destruct (copy_ok (fun i => img (idx * ps + i)) n l buffer Hb) as (b1 & B1 & B2 & B3).
  { intros g c K. destruct (Lin g c K) as (L1 & L2 & L3 & L4 & L5). destruct (ST g c L4) as [S1 S2]. split; [lia|]. split; [lia|]. split; [lia|]. split; [assumption|].
    intros i Hii. rewrite <- (H7 g c (idx * ps + i) L4).
    - f_equal. unfold block_start. rewrite L5. lia.
    - rewrite <- L5. now apply piece_covers. }
  set (offs := map (fun gc => {| obegin := bbegin (cinfo (snd gc)); osize := blength (cinfo (snd gc)) |}) l).
  assert (OI : forall o, In o offs <-> exists g c, In (g, c) l /\ o = {| obegin := bbegin (cinfo c); osize := blength (cinfo c) |}).
  { intros o. unfold offs. rewrite in_map_iff. split; [intros ([g c] & <- & K); now exists g, c|intros (g & c & K & ->); now exists (g, c)]. }
  pose proof (sort_offsets_perm offs) as SP.
  pose proof (gaps_ok n (sortOffsets offs) (sort_ascending offs)) as G.
  assert (G' : Forall (fun o => 0 <= obegin o /\ 0 < osize o /\ obegin o + osize o <= n) (sortOffsets offs)).
  { rewrite SP. apply Forall_forall. intros o K. apply OI in K. destruct K as (g & c & K & ->). cbn. destruct (Lin g c K) as (L1 & L2 & L3 & _). lia. }
  specialize (G G' ltac:(lia)).
  assert (G2 : forall a b, In a (sortOffsets offs) -> In b (sortOffsets offs) -> obegin a <= obegin b -> obegin a + osize a <= obegin b + osize b).
  { intros a b Ka Kb Le. apply (Permutation_in _ SP) in Ka. apply (Permutation_in _ SP) in Kb. apply OI in Ka. apply OI in Kb.
    destruct Ka as (ga & ca & Ka & ->). destruct Kb as (gb & cb & Kb & ->). cbn [obegin osize] in *.
    destruct (Lin _ _ Ka) as (_ & _ & _ & Xa & Ia). destruct (Lin _ _ Kb) as (_ & _ & _ & Xb & Ib).
    destruct (ST _ _ Xa) as [(_ & _ & ka & A1 & A2 & A3 & A4) _]. destruct (ST _ _ Xb) as [(_ & _ & kb & A1' & A2' & A3' & A4') _].
    rewrite Ia in *. rewrite Ib in *. lia. }
  specialize (G G2 0 ltac:(lia)). 
  assert (G3 : Forall (fun o => 0 <= obegin o + osize o) (sortOffsets offs)) by (eapply Forall_impl; [|exact G']; cbn; intros; lia).
  specialize (G G3). 
  unfold readPiece, missingOf, readBlocks. fold l. rewrite B1. cbn [bind]. fold offs.
  destruct (gaps 0 (sortOffsets offs)) as [m e] eqn:EG. cbn [bind]. destruct G as (E1 & E2 & E3). rewrite Hb.
  set (miss := if e <? n then m ++ [{| obegin := e; osize := u32 (n - e) |}] else m).
  assert (MI : forall i, 0 <= i < n -> ((exists o, In o miss /\ in_off o i) <-> forall o, In o offs -> ~ in_off o i)).
  { intros i Hii. assert (X : (forall o, In o offs -> ~ in_off o i) <-> (forall o, In o (sortOffsets offs) -> ~ in_off o i)).
    { split; intros X o K; apply X; [now apply (Permutation_in _ SP)|now apply (Permutation_in _ (Permutation_sym SP))]. }
    rewrite X, <- (E3 i) by lia. unfold miss. destruct (Z.ltb_spec e n).
    - unfold u32. rewrite Z.mod_small by lia. split.
      + intros (o & K & Io). apply in_app_or in K. destruct K as [K|[<-|[]]]; [left; now exists o|]. right. unfold in_off in Io. cbn in Io. lia.
      + intros [(o & K & Io)|K]; [exists o; split; [apply in_or_app; now left|assumption]|]. eexists. split; [apply in_or_app; right; now left|]. unfold in_off. cbn. lia.
    - split; [intros K; now left|]. intros [K|K]; [assumption|lia]. }
  assert (MF : Forall (fun q => 0 <= obegin q /\ 0 <= osize q /\ obegin q + osize q <= n) miss).
  { assert (X : Forall (fun q => 0 <= obegin q /\ 0 <= osize q /\ obegin q + osize q <= n) m) by (eapply Forall_impl; [|exact E2]; cbn; intros; lia).
    unfold miss. destruct (Z.ltb_spec e n); [|assumption]. apply Forall_app. split; [assumption|]. constructor; [|constructor]. cbn. unfold u32. rewrite Z.mod_small; lia. }
  pose proof R2 as [_ _ _ _ _ _ _ D8 _ D10].
  destruct (laid_out_ok t LO) as (L1 & L2 & L3 & L4).
  assert (LOAD : exists b, match miss with [] => Ok (Success, b1) | _ => loadPieceBlocks t (cdisk s') idx miss b1 end = Ok (Success, b) /\ zlen b = n /\
    forall i, 0 <= i -> zn b i = if existsb (fun q => in_offset q i) miss && (0 <=? idx * ps + i) && (idx * ps + i <? 0 + total (map fsize (files t)))
                                 then zn (bytes_of (cdisk s')) (idx * ps + i - 0) else zn b1 i).
  { destruct miss as [|q miss'] eqn:EM; [exists b1; split; [reflexivity|]; split; [assumption|reflexivity]|]. rewrite <- EM in MF |- *.
    destruct (loadLowerBound_ok n ps idx miss) with (fs := files t) (o := 0) (disk := cdisk s') (buffer := b1) as (b & X1 & X2 & X3); try lia; try assumption.
    { now apply laid_intro. }
    exists b. split; [|split; [lia|]].
    - rewrite EM. rewrite EM in X1. exact X1.
    - exact X3. }
  destruct LOAD as (b & X1 & X2 & X3). exists b. split; [assumption|]. split; [exact X1|]. split; [assumption|].
  intros i Hii. rewrite X3 by lia. rewrite <- L4, Z.add_0_l, Z.sub_0_r.
  destruct (Z.leb_spec 0 (idx * ps + i)); [|lia]. destruct (Z.ltb_spec (idx * ps + i) (fullSize t)); [|lia]. rewrite !andb_true_r.
  destruct (existsb (fun q => in_offset q i) miss) eqn:EX.
  - apply existsb_exists in EX. destruct EX as (q & Q1 & Q2). unfold in_offset in Q2. apply andb_true_iff in Q2. rewrite Z.leb_le, Z.ltb_lt in Q2.
    assert (NC : forall o, In o offs -> ~ in_off o i) by (apply MI; [assumption|]; exists q; split; [assumption|exact Q2]).
    assert (U : forall g c, cached s g c -> ~ covers ps (cinfo c) (idx * ps + i)).
    { intros g c K Cx. destruct (ST g c K) as [S1 _]. destruct (covers_piece _ idx i S1 ltac:(lia) Cx Hi) as [Z1 Z2].
      apply (NC {| obegin := bbegin (cinfo c); osize := blength (cinfo c) |}); [|exact Z2]. apply OI. exists g, c. split; [|reflexivity]. apply cachedOf_In. now split. }
    assert (NB : forall bd, In bd (stores es) -> ~ covers ps (binfo bd) (idx * ps + i)).
    { clear - C I LO SZ Nst Hi Hii Hn. revert img s I C. induction es as [|e es' IH]; intros img s I C bd K; [contradiction K|].
      destruct C as [A C]. destruct (step_inv img s e I A) as (s1 & S1 & S2). unfold stores in K. cbn [flat_map] in K. apply in_app_or in K. destruct K as [K|K].
      - destruct e as [b0| | | |]; try contradiction K. destruct K as [<-|[]]. destruct A as (A1 & _). intros Cx.
        destruct (covers_piece _ idx i A1 ltac:(lia) Cx Hi) as [Z1 _]. apply (Nst b0); [now left|assumption].
      - apply (IH (fun b Hb => Nst b ltac:(unfold stores; cbn [flat_map]; apply in_or_app; now right)) _ s1 S2 (C s1 S1)). exact K. }
    pose proof (uncached es img s (idx * ps + i) I C U NB s' R1) as U'.
    rewrite D8 by (try assumption; lia). now apply overlay_none.
  - assert (NM : ~ exists o, In o miss /\ in_off o i).
    { intros (o & K & Io). assert (Y : existsb (fun q => in_offset q i) miss = true); [|congruence]. apply existsb_exists. exists o. split; [assumption|].
      unfold in_offset. apply andb_true_iff. rewrite Z.leb_le, Z.ltb_lt. exact Io. }
    rewrite (MI i Hii) in NM. destruct (B3 i ltac:(lia)) as [B4 B5].
    assert (D : (exists g c, In (g, c) l /\ bbegin (cinfo c) <= i < bbegin (cinfo c) + blength (cinfo c)) \/ ~ (exists g c, In (g, c) l /\ bbegin (cinfo c) <= i < bbegin (cinfo c) + blength (cinfo c))).
    { clear. induction l as [|[g1 c1] l' IH]; [right; intros (? & ? & [] & _)|].
      destruct (Z_le_dec (bbegin (cinfo c1)) i); [destruct (Z_lt_dec i (bbegin (cinfo c1) + blength (cinfo c1)))|].
      - left. exists g1, c1. split; [now left|lia].
      - destruct IH as [(g' & c' & K1 & K2)|K]; [left; exists g', c'; split; [now right|assumption]|right; intros (g' & c' & [X|X] & Y); [inversion X; subst; lia|apply K; now exists g', c']].
      - destruct IH as [(g' & c' & K1 & K2)|K]; [left; exists g', c'; split; [now right|assumption]|right; intros (g' & c' & [X|X] & Y); [inversion X; subst; lia|apply K; now exists g', c']]. }
    destruct D as [D|D]; [now apply B4|]. exfalso. apply NM. intros o K Io. apply OI in K. destruct K as (g & c & K & ->). apply D. exists g, c. split; [assumption|exact Io].
Qed.

End Inv.
