From Verif Require Import Base BaseLemmas Dec DecLemmas BencodeModel BencodeSpec BencodeProofs StateModel StateProps LayoutModel ShaModel TfModel TfSpec.

Lemma lookup_split k t d v : lookup k t d = Some v -> exists d1 d2, d = d1 ++ (k, v) :: d2 /\ kind_of v = t /\
  Forall (fun kv => list_eqb k (fst kv) && kind_eqb (kind_of (snd kv)) t = false) d1.
Proof.
  induction d as [|[k' v'] d IH]; cbn [lookup]; [discriminate|]. destruct (list_eqb k k' && kind_eqb (kind_of v') t) eqn:E.
  - intros X. injection X as ->. apply andb_prop in E as [E1 E2]. apply list_eqb_spec in E1. subst k'. exists [], d. repeat split; auto. destruct v, t; try reflexivity; discriminate.
  - intros X. destruct (IH X) as (d1 & d2 & -> & K & F). exists ((k', v') :: d1), d2. repeat split; auto.
Qed.

Section F.
Variable m : list Z.


Lemma ok_app (d1 d2 : list (list Z * bval)) : fold_right and True (map (fun kv => bytes_ok (fst kv) /\ bval_ok (snd kv)) (d1 ++ d2)) <->
  fold_right and True (map (fun kv => bytes_ok (fst kv) /\ bval_ok (snd kv)) d1) /\ fold_right and True (map (fun kv => bytes_ok (fst kv) /\ bval_ok (snd kv)) d2).
Proof. rewrite !fold_and. apply Forall_app. Qed.

(** Passing over the first entry. *)
Lemma entry_split k v d p pre post objs : objs = pre ++ fld ((k, v) :: d) p ++ post -> d <> [] ->
  objs = pre ++ keyObj k p 1 :: fl v (p + zlen (benkey k)) true ++ fld d (p + zlen (benentry (k, v))) ++ post /\
  getNextSibling objs (length pre) = Some (S (length pre)) /\
  getNextSibling objs (S (length pre)) = Some (length (pre ++ keyObj k p 1 :: fl v (p + zlen (benkey k)) true)) /\
  objs = (pre ++ keyObj k p 1 :: fl v (p + zlen (benkey k)) true) ++ fld d (p + zlen (benentry (k, v))) ++ post.
Proof.
  intros E N. cbn [fld] in E. assert (X : isnil d = false) by (destruct d; [congruence|reflexivity]). rewrite X in E. cbn [negb] in E. cbn [app] in E. rewrite <- app_assoc in E.
  split; [exact E|]. rewrite E. split; [rewrite next_mid; cbn [onext keyObj]; change (1 =? 0) with false; cbv iota; change (Z.to_nat 1) with 1%nat; f_equal; lia|]. split.
  - replace (pre ++ keyObj k p 1 :: fl v (p + zlen (benkey k)) true ++ fld d (p + zlen (benentry (k, v))) ++ post)
      with ((pre ++ [keyObj k p 1]) ++ fl v (p + zlen (benkey k)) true ++ (fld d (p + zlen (benentry (k, v))) ++ post)) by (rewrite <- !app_assoc; reflexivity).
    replace (S (length pre)) with (length (pre ++ [keyObj k p 1])) by (rewrite app_length; cbn; lia). rewrite next_fl. f_equal. rewrite !app_length. cbn [length]. rewrite fl_length. lia.
  - rewrite <- app_assoc. cbn [app]. reflexivity.
Qed.

Lemma concat_entry k v d : concat (map benentry ((k, v) :: d)) = benkey k ++ bencode v ++ concat (map benentry d).
Proof. cbn [map concat]. unfold benentry at 1. cbn [fst snd]. now rewrite <- app_assoc. Qed.

Lemma value_reads k v d p pre post : at_ m p (concat (map benentry ((k, v) :: d))) -> bval_ok v -> d <> [] ->
  reads m (pre ++ fld ((k, v) :: d) p ++ post) v (S (length pre)).
Proof.
  intros A O N. rewrite concat_entry in A. apply at_app in A as [_ A]. apply at_app in A as [A _].
  destruct (entry_split k v d p pre post _ eq_refl N) as (E & _). rewrite E. rewrite fl_hn.
  replace (pre ++ keyObj k p 1 :: hn (Z.of_nat (nodes v)) (fl v (p + zlen (benkey k)) false) ++ fld d (p + zlen (benentry (k, v))) ++ post)
    with ((pre ++ [keyObj k p 1]) ++ hn (Z.of_nat (nodes v)) (fl v (p + zlen (benkey k)) false) ++ (fld d (p + zlen (benentry (k, v))) ++ post)) by (rewrite <- !app_assoc; reflexivity).
  replace (S (length pre)) with (length (pre ++ [keyObj k p 1])) by (rewrite app_length; cbn; lia). now apply readable_all.
Qed.

Lemma key_text k v d p pre post : at_ m p (concat (map benentry ((k, v) :: d))) ->
  nth (length pre) (pre ++ fld ((k, v) :: d) p ++ post) noObj = keyObj k p 1 /\ itemText m (keyObj k p 1) = Val k.
Proof.
  intros A. rewrite concat_entry in A. apply at_app in A as [A _]. split; [cbn [fld app]; apply nth_mid|]. now apply keyObj_text.
Qed.

Lemma findInfo_ok V d2 d1 : forall p pre post f,
  at_ m p (concat (map benentry (d1 ++ (kInfo, V) :: d2))) -> fold_right and True (map (fun kv => bytes_ok (fst kv) /\ bval_ok (snd kv)) (d1 ++ (kInfo, V) :: d2)) ->
  Forall (fun kv => fst kv <> kInfo /\ snd kv <> BStr kInfo) d1 -> (2 * length d1 + 1 <= f)%nat ->
  let objs := pre ++ fld (d1 ++ (kInfo, V) :: d2) p ++ post in
  exists pre', findInfo m objs f (Some (length pre)) = Val (Some (length pre')) /\
    objs = pre' ++ fld ((kInfo, V) :: d2) (p + zlen (concat (map benentry d1))) ++ post.
Proof.
  induction d1 as [|[k v] d1 IH]; intros p pre post f A O C L.
  - cbn zeta. cbn [app] in *. exists pre. destruct f as [|f]; [lia|]. cbn [findInfo].
    destruct (key_text kInfo V d2 p pre post A) as [E T]. rewrite E. change (otyp (keyObj kInfo p 1)) with TText. cbn [typeEqb].
    assert (LT : (length pre < length (pre ++ fld ((kInfo, V) :: d2) p ++ post))%nat) by (rewrite !app_length, fld_length; unfold dnodes, list_sum; cbn; lia).
    apply Nat.ltb_lt in LT. rewrite LT. rewrite (itemEquals_key m _ _ kInfo T). rewrite list_eqb_refl. cbn [obind].
    split; [reflexivity|]. cbn [map concat]. change (zlen (@nil Z)) with 0. now rewrite Z.add_0_r.
  - cbn zeta. inversion C as [|x y [C1 C2] C3]; subst. cbn [fst snd] in *. cbn [app] in *.
    assert (N : d1 ++ (kInfo, V) :: d2 <> []) by (destruct d1; discriminate).
    destruct (key_text k v _ p pre post A) as [E T].
    apply fold_and_cons in O as [[O1 O2] O3]. cbn [fst snd] in *.
    pose proof (value_reads k v _ p pre post A O2 N) as R.
    destruct (entry_split k v _ p pre post _ eq_refl N) as (S1 & S2 & S3 & S4).
    set (objs := pre ++ fld ((k, v) :: d1 ++ (kInfo, V) :: d2) p ++ post) in *.
    destruct f as [|[|f]]; try (cbn [length] in L; lia).
    assert (LT : (S (length pre) < length objs)%nat) by (destruct v; apply R).
    remember (S f) as f1. cbn [findInfo]. replace (Nat.ltb (length pre) (length objs)) with true by (symmetry; apply Nat.ltb_lt; lia).
    rewrite E. change (otyp (keyObj k p 1)) with TText. cbn [typeEqb]. rewrite (itemEquals_key m _ _ kInfo T).
    assert (X : list_eqb kInfo k = false) by (destruct (list_eqb kInfo k) eqn:X; [apply list_eqb_spec in X; congruence|reflexivity]). rewrite X. cbn [obind]. rewrite S2.
    subst f1. cbn [findInfo]. replace (Nat.ltb (S (length pre)) (length objs)) with true by (symmetry; apply Nat.ltb_lt; lia).
    assert (Y : (if typeEqb (otyp (nth (S (length pre)) objs noObj)) TText then itemEquals m (nth (S (length pre)) objs noObj) kInfo else Val false) = Val false).
    { destruct v as [n|s|l|dd].
      - destruct R as (_ & R & _). rewrite R. reflexivity.
      - destruct R as (_ & R1 & R2). rewrite R1. cbn [typeEqb]. rewrite (itemEquals_key m _ _ kInfo R2). f_equal.
        destruct (list_eqb kInfo s) eqn:Q; [apply list_eqb_spec in Q; congruence|reflexivity].
      - destruct R as (_ & R & _). rewrite R. reflexivity.
      - destruct R as (_ & R & _). rewrite R. reflexivity. }
    rewrite Y. cbn [obind]. rewrite S3.
    assert (A2 : at_ m (p + zlen (benentry (k, v))) (concat (map benentry (d1 ++ (kInfo, V) :: d2)))).
    { change ((k, v) :: d1 ++ (kInfo, V) :: d2) with ([(k, v)] ++ (d1 ++ (kInfo, V) :: d2)) in A. rewrite map_app, concat_app in A. apply at_app in A as [_ A]. cbn [map concat] in A. rewrite app_nil_r in A. exact A. }
    destruct (IH (p + zlen (benentry (k, v))) (pre ++ keyObj k p 1 :: fl v (p + zlen (benkey k)) true) post f A2 O3 C3) as (pre' & F1 & F2); [cbn [length] in L; lia|].
    rewrite <- S4 in F1, F2. exists pre'. split; [exact F1|]. rewrite F2. cbn [map concat]. rewrite zlen_app, Z.add_assoc. reflexivity.
Qed.

Lemma findFrom_ok name t V d2 d1 : forall p pre post f,
  at_ m p (concat (map benentry (d1 ++ (name, V) :: d2))) -> fold_right and True (map (fun kv => bytes_ok (fst kv) /\ bval_ok (snd kv)) (d1 ++ (name, V) :: d2)) ->
  Forall (fun kv => list_eqb name (fst kv) && kind_eqb (kind_of (snd kv)) t = false) d1 -> kind_of V = t -> (length d1 + 1 <= f)%nat ->
  let objs := pre ++ fld (d1 ++ (name, V) :: d2) p ++ post in
  exists pre', findFrom f m objs (Some (length pre)) name (otype_of t) = Val (Some (S (length pre'))) /\
    objs = pre' ++ fld ((name, V) :: d2) (p + zlen (concat (map benentry d1))) ++ post.
Proof.
  induction d1 as [|[k v] d1 IH]; intros p pre post f A O C K L.
  - cbn zeta. cbn [app] in *. exists pre. destruct f as [|f]; [lia|]. cbn [findFrom].
    destruct (key_text name V d2 p pre post A) as [E T]. rewrite E.
    assert (LT : (S (length pre) < length (pre ++ fld ((name, V) :: d2) p ++ post))%nat).
    { rewrite !app_length, fld_length. unfold dnodes, list_sum. pose proof (nodes_pos V). cbn [map fold_right snd]. lia. }
    apply Nat.ltb_lt in LT. rewrite LT. rewrite (itemEquals_key m _ _ name T). rewrite list_eqb_refl. cbn [obind andb].
    assert (Y : otyp (nth (S (length pre)) (pre ++ fld ((name, V) :: d2) p ++ post) noObj) = otype_of t).
    { cbn [fld app]. replace (pre ++ keyObj name p 1 :: (fl V (p + zlen (benkey name)) (negb (isnil d2)) ++ fld d2 (p + zlen (benentry (name, V)))) ++ post)
        with ((pre ++ [keyObj name p 1]) ++ fl V (p + zlen (benkey name)) (negb (isnil d2)) ++ (fld d2 (p + zlen (benentry (name, V))) ++ post)) by (rewrite <- !app_assoc; reflexivity).
      replace (S (length pre)) with (length (pre ++ [keyObj name p 1])) by (rewrite app_length; cbn; lia). rewrite <- K.
      destruct V; cbn [fl app]; rewrite nth_mid; reflexivity. }
    rewrite Y. assert (Z0 : typeEqb (otype_of t) (otype_of t) = true) by (destruct t; reflexivity). rewrite Z0. split; [reflexivity|]. cbn [map concat]. change (zlen (@nil Z)) with 0. now rewrite Z.add_0_r.
  - cbn zeta. inversion C as [|x y C1 C3]; subst x y. cbn [fst snd] in C1. cbn [app] in *.
    assert (N : d1 ++ (name, V) :: d2 <> []) by (destruct d1; discriminate).
    destruct (key_text k v _ p pre post A) as [E T].
    apply fold_and_cons in O as [[O1 O2] O3]. cbn [fst snd] in *.
    pose proof (value_reads k v _ p pre post A O2 N) as R.
    destruct (entry_split k v _ p pre post _ eq_refl N) as (S1 & S2 & S3 & S4).
    set (objs := pre ++ fld ((k, v) :: d1 ++ (name, V) :: d2) p ++ post) in *.
    destruct f as [|f]; try (cbn [length] in L; lia).
    destruct (reads_type m _ _ _ R) as [LT TY].
    cbn [findFrom]. replace (Nat.ltb (S (length pre)) (length objs)) with true by (symmetry; apply Nat.ltb_lt; lia).
    rewrite E. rewrite (itemEquals_key m _ _ name T). cbn [obind]. rewrite TY, typeEqb_kind, C1. rewrite S3.
    assert (A2 : at_ m (p + zlen (benentry (k, v))) (concat (map benentry (d1 ++ (name, V) :: d2)))).
    { change ((k, v) :: d1 ++ (name, V) :: d2) with ([(k, v)] ++ (d1 ++ (name, V) :: d2)) in A. rewrite map_app, concat_app in A. apply at_app in A as [_ A]. cbn [map concat] in A. rewrite app_nil_r in A. exact A. }
    destruct (IH (p + zlen (benentry (k, v))) (pre ++ keyObj k p 1 :: fl v (p + zlen (benkey k)) true) post f A2 O3 C3 K) as (pre' & F1 & F2); [cbn [length] in L; lia|].
    rewrite <- S4 in F1, F2. exists pre'. split; [exact F1|]. rewrite F2. cbn [map concat]. rewrite zlen_app, Z.add_assoc. reflexivity.
Qed.

End F.

Lemma parse_shape v c rest fuel len : bval_ok v -> Z.of_nat (nodes v) < 65536 ->
  zlen (bencode v) <= len -> len < 2147483648 -> (2 * nodes v <= fuel)%nat ->
  exists z r, parse fuel (bencode v ++ c :: rest) len = Val r /\ pobjs r = hn z (fl v 0 false) /\ pok r = true /\ pend r = zlen (bencode v).
Proof.
  intros Hok Hn Hl Hs Hf. set (m := bencode v ++ c :: rest) in *.
  assert (Hat : at_ m 0 (bencode v ++ [c])).
  { exists [], rest. split; [|reflexivity]. unfold m. rewrite <- app_assoc. reflexivity. }
  destruct (parses_all m len Hs v fuel [] 0 c Hat) as [z E]; try lia; try assumption.
  unfold parse. rewrite E. cbn [obind app]. rewrite Z.add_0_l.
  exists z. eexists. split; [reflexivity|]. cbn [pobjs pend premaining pok]. split; [reflexivity|]. split; [destruct v; reflexivity|reflexivity].
Qed.

Lemma skip_upd (PM X : list Z) : PM <> [] -> skipn (length PM - 1) (upd (length PM - 1) 100 (PM ++ X)) = 100 :: X.
Proof.
  induction PM as [|a PM IH]; intros N; [congruence|]. destruct PM as [|b PM].
  - reflexivity.
  - replace (length (a :: b :: PM) - 1)%nat with (S (length (b :: PM) - 1)) by (cbn [length]; lia). cbn [app upd skipn]. apply IH. discriminate.
Qed.

Lemma zlen_pos {A} (l : list A) : l <> [] -> 0 < zlen l.
Proof. destruct l; [congruence|]. intros _. rewrite zlen_cons. pose proof (zlen_nonneg l). lia. Qed.

Lemma nodes_dict d : nodes (BDict d) = S (dnodes d).
Proof. reflexivity. Qed.
Lemma dnodes_app a b : dnodes (a ++ b) = (dnodes a + dnodes b)%nat.
Proof. unfold dnodes. rewrite map_app, list_sum_app. reflexivity. Qed.
Lemma dnodes_cons k v d : dnodes ((k, v) :: d) = (S (nodes v) + dnodes d)%nat.
Proof. reflexivity. Qed.
Lemma dnodes_length d : (2 * length d <= dnodes d)%nat.
Proof. induction d as [|[k v] d IH]; [reflexivity|]. rewrite dnodes_cons. cbn [length]. pose proof (nodes_pos v). lia. Qed.

Definition kv_ok (d : list (list Z * bval)) : Prop := fold_right and True (map (fun kv => bytes_ok (fst kv) /\ bval_ok (snd kv)) d).

Lemma infoBytes_ok d1 e1 s e2 d2 c rest fuel z :
  let e := e1 ++ (kPieces, BStr s) :: e2 in let d := d1 ++ (kInfo, BDict e) :: d2 in
  let m := bencode (BDict d) ++ c :: rest in
  bval_ok (BDict d) -> Z.of_nat (nodes (BDict d)) < 65536 -> zlen (bencode (BDict d)) < 2147483648 -> (2 * nodes (BDict d) <= fuel)%nat ->
  Forall (fun kv => fst kv <> kInfo /\ snd kv <> BStr kInfo) d1 ->
  Forall (fun kv => list_eqb kPieces (fst kv) && kind_eqb (kind_of (snd kv)) KStr = false) e1 ->
  infoBytes fuel m (hn z (fl (BDict d) 0 false)) (zlen (bencode (BDict d))) = Val (Some (bencode (BDict e))).
Proof.
  intros e d m OK NO SM FU CI CP.
  assert (OKD : kv_ok d) by exact OK.
  pose proof (proj1 (ok_app _ _) OKD) as [OK1 OK2]. cbn [map fold_right fst snd] in OK2. destruct OK2 as [[_ OKE] OK2]. change (bval_ok (BDict e)) with (kv_ok e) in OKE.
  pose proof (proj1 (ok_app _ _) OKE) as [OKE1 OKE2]. cbn [map fold_right fst snd] in OKE2. destruct OKE2 as [_ OKE2].
  assert (ND : nodes (BDict d) = (1 + dnodes d1 + (1 + (1 + (dnodes e1 + (2 + dnodes e2)))) + dnodes d2)%nat).
  { rewrite nodes_dict. unfold d. rewrite dnodes_app, dnodes_cons, nodes_dict. unfold e. rewrite dnodes_app, dnodes_cons. cbn [nodes]. lia. }
  assert (LE : (length d1 <= dnodes d1 /\ length e1 <= dnodes e1)%nat) by (pose proof (dnodes_length d1); pose proof (dnodes_length e1); lia).
  (* memory *)
  set (B := fun l => concat (map benentry l)).
  assert (Bapp : forall a b, B (a ++ b) = B a ++ B b) by (intros; unfold B; rewrite map_app, concat_app; reflexivity).
  assert (Bcons : forall k v l, B ((k, v) :: l) = benkey k ++ bencode v ++ B l) by (intros; apply concat_entry).
  set (PM := [100] ++ B d1 ++ benkey kInfo ++ [100] ++ B e1 ++ benkey kPieces ++ benkey s).
  set (T := B d2 ++ [101] ++ c :: rest).
  assert (EM : m = PM ++ B e2 ++ [101] ++ T).
  { unfold m, PM, T. rewrite bencode_dict. fold (B d). unfold d at 1. rewrite Bapp, Bcons, bencode_dict. fold (B e). unfold e. rewrite Bapp, Bcons.
    change (bencode (BStr s)) with (benkey s). rewrite <- !app_assoc. reflexivity. }
  assert (EE : bencode (BDict e) = [100] ++ B e1 ++ benkey kPieces ++ benkey s ++ B e2 ++ [101]).
  { rewrite bencode_dict. fold (B e). unfold e. rewrite Bapp, Bcons. change (bencode (BStr s)) with (benkey s). rewrite <- !app_assoc. reflexivity. }
  set (H0 := [100] ++ B d1 ++ benkey kInfo).
  assert (EM2 : m = H0 ++ bencode (BDict e) ++ T).
  { rewrite EM, EE. unfold PM, H0. rewrite <- !app_assoc. reflexivity. }
  assert (LBE : zlen (bencode (BDict d)) = zlen PM + zlen (B e2) + 1 + zlen (B d2) + 1).
  { assert (X : zlen m = zlen m) by reflexivity. rewrite EM in X at 2. unfold m, T in X. rewrite !zlen_app in X. change (zlen [101]) with 1 in X. lia. }
  (* the objects *)
  assert (F0 : hn z (fl (BDict d) 0 false) = [setNext z {| odata := 0; osize := zlen d; onext := 0; otyp := TDict |}] ++ fld d 1 ++ []).
  { rewrite fl_dict. cbn [hn app]. now rewrite app_nil_r. }
  rewrite F0. set (o := setNext z _). set (objs := [o] ++ fld d 1 ++ []).
  unfold infoBytes.
  assert (FI : getFirstItem objs 0 = Some (length [o])).
  { unfold getFirstItem. cbn [objs app nth]. cbn [o osize setNext]. destruct (Z.eqb_spec (zlen d) 0) as [X|X]; [|reflexivity].
    assert (0 < zlen d); [|lia]. apply zlen_pos. unfold d. destruct d1; discriminate. }
  rewrite FI.
  assert (AT1 : at_ m 1 (B d)).
  { exists [100], ([101] ++ c :: rest). split; [|reflexivity]. unfold m. rewrite bencode_dict. fold (B d). rewrite <- !app_assoc. reflexivity. }
  destruct (findInfo_ok m (BDict e) d2 d1 1 [o] [] fuel AT1 OKD CI) as (pre' & E1 & E2); [lia|]. fold d in E1, E2. fold objs in E1, E2. rewrite E1. cbn [obind].
  fold (B d1) in E2. set (P := 1 + zlen (B d1)) in *.
  (* the info dictionary *)
  unfold infoRange.
  assert (K1 : nth (length pre') objs noObj = keyObj kInfo P 1) by (rewrite E2; cbn [fld app]; apply nth_mid). rewrite K1.
  assert (NX : getNextSibling objs (length pre') = Some (S (length pre'))).
  { unfold getNextSibling. rewrite K1. cbn [onext keyObj]. change (1 =? 0) with false. cbv iota. change (Z.to_nat 1) with 1%nat. f_equal. lia. }
  rewrite NX. cbn [fld] in E2. rewrite fl_dict in E2. cbn [app] in E2.
  set (o2 := {| odata := 0; osize := zlen e; onext := if negb (isnil d2) then Z.of_nat (nodes (BDict e)) else 0; otyp := TDict |}) in E2.
  set (post2 := fld d2 (P + zlen (benentry (kInfo, BDict e))) ++ []) in E2.
  assert (E3 : objs = (pre' ++ [keyObj kInfo P 1; o2]) ++ fld e (P + zlen (benkey kInfo) + 1) ++ post2).
  { rewrite E2. unfold post2. rewrite <- !app_assoc. reflexivity. }
  assert (K2 : nth (S (length pre')) objs noObj = o2).
  { rewrite E3. replace (pre' ++ [keyObj kInfo P 1; o2]) with ((pre' ++ [keyObj kInfo P 1]) ++ [o2]) by (rewrite <- app_assoc; reflexivity).
    rewrite <- app_assoc. cbn [app]. replace (S (length pre')) with (length (pre' ++ [keyObj kInfo P 1])) by (rewrite app_length; cbn; lia). apply nth_mid. }
  rewrite K2. change (typeEqb (otyp o2) TDict) with true. cbv iota. unfold getObject.
  assert (FE : getFirstItem objs (S (length pre')) = Some (length (pre' ++ [keyObj kInfo P 1; o2]))).
  { unfold getFirstItem. rewrite K2. cbn [o2 osize]. destruct (Z.eqb_spec (zlen e) 0) as [X|X]; [|f_equal; rewrite app_length; cbn; lia].
    assert (0 < zlen e); [|lia]. apply zlen_pos. unfold e. destruct e1; discriminate. }
  rewrite FE.
  assert (Q0 : P + zlen (benkey kInfo) = zlen H0). { unfold H0, P. rewrite !zlen_app. change (zlen [100]) with 1. lia. }
  assert (AT2 : at_ m (P + zlen (benkey kInfo) + 1) (B e)).
  { exists (H0 ++ [100]), ([101] ++ T). split; [|rewrite zlen_app, Q0; reflexivity]. rewrite EM2, bencode_dict. fold (B e). rewrite <- !app_assoc. reflexivity. }
  change TText with (otype_of KStr).
  destruct (findFrom_ok m kPieces KStr (BStr s) e2 e1 _ (pre' ++ [keyObj kInfo P 1; o2]) post2 fuel AT2 OKE CP eq_refl) as (pre2 & G1 & G2); [lia|].
  fold e in G1, G2. rewrite <- E3 in G1, G2. rewrite G1. cbn [obind]. fold (B e1) in G2.
  set (Q := P + zlen (benkey kInfo) + 1 + zlen (B e1)) in *.
  assert (K3 : exists nx, nth (S (length pre2)) objs noObj = keyObj s (Q + zlen (benkey kPieces)) nx).
  { eexists. rewrite G2. cbn [fld fl app]. match goal with |- nth _ (pre2 ++ ?a :: ?b :: ?r) _ = _ => replace (pre2 ++ a :: b :: r) with ((pre2 ++ [a]) ++ b :: r) by (rewrite <- app_assoc; reflexivity) end.
    replace (S (length pre2)) with (length (pre2 ++ [keyObj kPieces Q 1])) by (rewrite app_length; cbn; lia). apply nth_mid. }
  destruct K3 as (nx & K3). rewrite K3. cbn [odata osize keyObj].
  assert (IE : Q + zlen (benkey kPieces) + zlen (toString (zlen s)) + 1 + zlen s = zlen PM).
  { unfold Q. rewrite Q0. unfold PM, H0, benkey. rewrite !zlen_app. change (zlen [58]) with 1. change (zlen [100]) with 1. lia. }
  rewrite IE.
  assert (IS : P + zlen (toString (zlen kInfo)) + 1 + 4 = zlen H0). { rewrite <- Q0. unfold benkey. rewrite !zlen_app. change (zlen [58]) with 1. change (zlen kInfo) with 4. lia. }
  rewrite IS.
  assert (FIN : forall en, en = zlen H0 + zlen (bencode (BDict e)) ->
    (if (0 <=? zlen H0) && (zlen H0 <=? en) && (en <=? zlen m) then Val (Some (slice (Z.to_nat (zlen H0)) (Z.to_nat (en - zlen H0)) m)) else Undef) = Val (Some (bencode (BDict e)))).
  { intros en ->. pose proof (zlen_nonneg H0). pose proof (zlen_nonneg (bencode (BDict e))). pose proof (zlen_nonneg T).
    assert (LM : zlen m = zlen H0 + zlen (bencode (BDict e)) + zlen T) by (rewrite EM2 at 1; rewrite !zlen_app; lia). rewrite LM.
    destruct (Z.leb_spec 0 (zlen H0)); [|lia]. destruct (Z.leb_spec (zlen H0) (zlen H0 + zlen (bencode (BDict e)))); [|lia].
    destruct (Z.leb_spec (zlen H0 + zlen (bencode (BDict e))) (zlen H0 + zlen (bencode (BDict e)) + zlen T)); [|lia]. cbn [andb]. f_equal. f_equal.
    rewrite EM2 at 1. apply slice_at; unfold zlen; lia. }
  assert (LH : zlen H0 + zlen (bencode (BDict e)) = zlen PM + zlen (B e2) + 1).
  { rewrite EE. unfold PM, H0. rewrite !zlen_app. change (zlen [101]) with 1. change (zlen [100]) with 1. lia. }
  destruct (match e2 with [] => true | _ => false end) eqn:E2N.
  - (* pieces is the last entry *)
    destruct e2 as [|]; [|discriminate].
    assert (RD : rdAt m (zlen PM) = Val 101).
    { apply (rdAt_at m (zlen PM) 101 T). exists PM, []. split; [|reflexivity]. rewrite EM. cbn [B map concat app]. now rewrite app_nil_r. }
    rewrite RD. cbn [obind]. change (negb (101 =? 101)) with false. cbv iota. cbn [obind]. apply FIN. rewrite LH. change (zlen (B [])) with 0. lia.
  - (* more entries follow *)
    destruct e2 as [|[k v] e2]; [discriminate|]. destruct (benkey_hd k) as (h & t & EK & DK).
    assert (RD : rdAt m (zlen PM) = Val h).
    { apply (rdAt_at m (zlen PM) h (t ++ bencode v ++ B e2)). exists PM, ([101] ++ T). split; [|reflexivity]. rewrite EM. f_equal. rewrite Bcons, EK. cbn [app]. rewrite <- !app_assoc. reflexivity. }
    rewrite RD. cbn [obind]. assert (HN : h <> 101) by (intros ->; discriminate DK). destruct (Z.eqb_spec h 101); [contradiction|]. cbn [negb].
    assert (PP : 0 < zlen PM) by (apply zlen_pos; discriminate). destruct (Z.ltb_spec (zlen PM - 1) 0); [lia|].
    replace (Z.to_nat (zlen PM - 1)) with (length PM - 1)%nat by (unfold zlen; lia).
    rewrite EM at 1. rewrite skip_upd by discriminate.
    set (EE2 := (k, v) :: e2) in *.
    assert (TN : exists c' rest', T = c' :: rest') by (unfold T; destruct (B d2); cbn [app]; eauto). destruct TN as (c' & rest' & TE).
    assert (X : 100 :: B EE2 ++ [101] ++ T = bencode (BDict EE2) ++ c' :: rest').
    { rewrite bencode_dict, TE. fold (B EE2). rewrite <- !app_assoc. reflexivity. }
    rewrite X.
    assert (LE2 : zlen (bencode (BDict EE2)) = 1 + zlen (B EE2) + 1). { rewrite bencode_dict. fold (B EE2). rewrite !zlen_app. change (zlen [100]) with 1. change (zlen [101]) with 1. lia. }
    pose proof (zlen_nonneg (B d2)).
    destruct (parse_shape (BDict EE2) c' rest' fuel (zlen (bencode (BDict d)) - (zlen PM - 1))) as (z2 & r2 & R1 & R2 & R3 & R4).
    + exact OKE2.
    + rewrite nodes_dict. lia.
    + lia.
    + lia.
    + rewrite nodes_dict. lia.
    + rewrite R1. cbn [obind]. rewrite R3, R4. cbn [obind]. apply FIN. rewrite LH, LE2. lia.
Qed.
