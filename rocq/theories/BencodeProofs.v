From Verif Require Import Base BaseLemmas Dec DecLemmas BencodeModel BencodeSpec.

Ltac veq := try (match goal with |- Val _ = Val _ => apply f_equal end); teq; try (rewrite ?zlen_nil; lia).

(** ** Induction on values *)

Lemma bval_ind' (P : bval -> Prop) :
  (forall n, P (BInt n)) -> (forall s, P (BStr s)) ->
  (forall l, Forall P l -> P (BList l)) ->
  (forall d, Forall (fun kv => P (snd kv)) d -> P (BDict d)) -> forall v, P v.
Proof.
  intros HI HS HL HD. fix IH 1. intros [n|s|l|d].
  - apply HI.
  - apply HS.
  - apply HL. induction l as [|v l IHl]; constructor; [apply IH|exact IHl].
  - apply HD. induction d as [|[k v] d IHd]; constructor; [apply IH|exact IHd].
Qed.

(** ** The writer *)

Definition benkey (k : list Z) : list Z := toString (zlen k) ++ [58] ++ k.
Definition benentry (kv : list Z * bval) : list Z := benkey (fst kv) ++ bencode (snd kv).

Lemma bencode_list l : bencode (BList l) = [108] ++ concat (map bencode l) ++ [101].
Proof. reflexivity. Qed.
Lemma bencode_dict d : bencode (BDict d) = [100] ++ concat (map benentry d) ++ [101].
Proof. reflexivity. Qed.

Lemma write_encode v : forall data, write v data = data ++ bencode v.
Proof.
  induction v as [n|s|l IH|d IH] using bval_ind'; intros data.
  - reflexivity.
  - reflexivity.
  - rewrite bencode_list. cbn [write].
    assert (E : forall data, fold_left (fun data v => write v data) l data = data ++ concat (map bencode l)).
    { induction IH as [|v l H IH' IHl]; intros da; cbn [fold_left map concat]; [now rewrite app_nil_r|].
      now rewrite IHl, H, <- app_assoc. }
    rewrite E. unfold startArray, endArray. now rewrite <- !app_assoc.
  - rewrite bencode_dict. cbn [write].
    assert (E : forall data, fold_left (fun data kv => write (snd kv) (addText data (fst kv))) d data = data ++ concat (map benentry d)).
    { induction IH as [|[k v] d H IH' IHd]; intros da; cbn [fold_left map concat]; [now rewrite app_nil_r|].
      cbn [snd fst] in *. rewrite IHd, H. unfold addText, benentry, benkey. cbn [fst snd]. now rewrite <- !app_assoc. }
    rewrite E. unfold startMap, endMap. now rewrite <- !app_assoc.
Qed.

(** ** One step of the parser *)

Lemma internalParse_S m bodyEnd f objs p : internalParse m bodyEnd (S f) objs p =
    obind (rdAt m p) (fun c =>
    if isDigit c then
      obind (parseString m bodyEnd objs p) (fun r => let '(ok, objs', p') := r in
        Val (if ok : bool then Some (length objs) else None, objs', p'))
    else if c =? 105 then
      obind (parseInt m bodyEnd objs p) (fun r => let '(ok, objs', p') := r in
        Val (if ok : bool then Some (length objs) else None, objs', p'))
    else if c =? 108 then
      obind (listLoop m bodyEnd f (objs ++ [newContainer TList]) (p + 1) 0) (closeContainer m bodyEnd (length objs))
    else if c =? 100 then
      obind (dictLoop m bodyEnd f (objs ++ [newContainer TDict]) (p + 1) 0) (closeContainer m bodyEnd (length objs))
    else Val (None, objs, bodyEnd)).
Proof. reflexivity. Qed.

Lemma listLoop_S m bodyEnd f objs p count : listLoop m bodyEnd (S f) objs p count =
    obind (notEnd m bodyEnd p) (fun ne =>
    if negb ne then Val (objs, p, count)
    else
      let objPos := u16 (zlen objs) in
      obind (internalParse m bodyEnd f objs p) (fun r => let '(o, objs', p') := r in
      match o with
      | None => listLoop m bodyEnd f objs' p' count
      | Some i =>
        obind (notEnd m bodyEnd p') (fun ne' =>
        listLoop m bodyEnd f (modify i (setNext (if ne' then u16 (u16 (zlen objs') - objPos) else 0)) objs') p' (count + 1))
      end)).
Proof. reflexivity. Qed.

Lemma dictLoop_S m bodyEnd f objs p count : dictLoop m bodyEnd (S f) objs p count =
    obind (notEnd m bodyEnd p) (fun ne =>
    if negb ne then Val (objs, p, count)
    else
      obind (parseString m bodyEnd objs p) (fun r => let '(s, objs1, p1) := r in
      if s : bool then
        let objPos := u16 (zlen objs1) in
        obind (internalParse m bodyEnd f objs1 p1) (fun r2 => let '(o, objs2, p2) := r2 in
        match o with
        | None => dictLoop m bodyEnd f objs2 p2 0
        | Some i =>
          if objPos =? 0 then Undef
          else
            let objs3 := modify (Z.to_nat (objPos - 1)) (setNext 1) objs2 in
            obind (notEnd m bodyEnd p2) (fun ne' =>
            dictLoop m bodyEnd f (modify i (setNext (if ne' then u16 (u16 (zlen objs3) - objPos) else 0)) objs3) p2 (count + 1))
        end)
      else dictLoop m bodyEnd f objs1 p1 count)).
Proof. reflexivity. Qed.

(** ** Memory at a position *)

Definition at_ (m : list Z) (p : Z) (l : list Z) : Prop := exists pre post, m = pre ++ l ++ post /\ p = zlen pre.

Lemma at_app m p a b : at_ m p (a ++ b) -> at_ m p a /\ at_ m (p + zlen a) b.
Proof.
  intros (pre & post & -> & ->). split.
  - exists pre, (b ++ post). now rewrite <- app_assoc.
  - exists (pre ++ a), post. rewrite zlen_app, <- !app_assoc. auto.
Qed.

Lemma at_cons m p a b : at_ m p (a :: b) -> at_ m p [a] /\ at_ m (p + 1) b.
Proof. apply (at_app m p [a] b). Qed.

Lemma memFrom_at m p l : at_ m p l -> l <> [] -> exists post, memFrom m p = Some (l ++ post).
Proof.
  intros (pre & post & -> & ->) N. exists post. unfold memFrom.
  pose proof (zlen_nonneg pre). pose proof (zlen_nonneg post).
  assert (0 < zlen l) by (destruct l; [congruence|rewrite zlen_cons; pose proof (zlen_nonneg l); lia]).
  rewrite !zlen_app. destruct (Z.leb_spec 0 (zlen pre)); [|lia].
  destruct (Z.ltb_spec (zlen pre) (zlen pre + (zlen l + zlen post))); [|lia]. cbn [andb].
  f_equal. apply skipn_app_len. unfold zlen. lia.
Qed.

Lemma rdAt_at m p c l : at_ m p (c :: l) -> rdAt m p = Val c.
Proof. intros H. unfold rdAt. destruct (memFrom_at m p _ H) as [post E]; [discriminate|]. now rewrite E. Qed.

Lemma notEnd_at m e p c l : at_ m p (c :: l) -> notEnd m e p = Val (negb (c =? 101) && (p <? e)).
Proof. intros H. unfold notEnd. now rewrite (rdAt_at _ _ _ _ H). Qed.

(** ** The flat form of a value *)

Definition isnil {A} (l : list A) : bool := match l with [] => true | _ => false end.

Definition keyObj (k : list Z) (p : Z) (next : Z) : obj :=
  {| odata := p + zlen (toString (zlen k)) + 1; osize := zlen k; onext := next; otyp := TText |}.

Fixpoint fl (v : bval) (p : Z) (nx : bool) : list obj :=
  let next := if nx then Z.of_nat (nodes v) else 0 in
  match v with
  | BInt n => [{| odata := p + 1; osize := zlen (toString n); onext := next; otyp := TNumber |}]
  | BStr s => [keyObj s p next]
  | BList l => {| odata := 0; osize := zlen l; onext := next; otyp := TList |} ::
    (fix go (l : list bval) (p : Z) : list obj :=
       match l with
       | [] => []
       | v :: l' => fl v p (negb (isnil l')) ++ go l' (p + zlen (bencode v))
       end) l (p + 1)
  | BDict d => {| odata := 0; osize := zlen d; onext := next; otyp := TDict |} ::
    (fix go (d : list (list Z * bval)) (p : Z) : list obj :=
       match d with
       | [] => []
       | (k, v) :: d' => keyObj k p 1 :: fl v (p + zlen (benkey k)) (negb (isnil d'))
                         ++ go d' (p + zlen (benentry (k, v)))
       end) d (p + 1)
  end.

Fixpoint fll (l : list bval) (p : Z) : list obj :=
  match l with
  | [] => []
  | v :: l' => fl v p (negb (isnil l')) ++ fll l' (p + zlen (bencode v))
  end.
Fixpoint fld (d : list (list Z * bval)) (p : Z) : list obj :=
  match d with
  | [] => []
  | (k, v) :: d' => keyObj k p 1 :: fl v (p + zlen (benkey k)) (negb (isnil d')) ++ fld d' (p + zlen (benentry (k, v)))
  end.

Lemma fl_list l p nx : fl (BList l) p nx =
  {| odata := 0; osize := zlen l; onext := if nx then Z.of_nat (nodes (BList l)) else 0; otyp := TList |} :: fll l (p + 1).
Proof. reflexivity. Qed.
Lemma fl_dict d p nx : fl (BDict d) p nx =
  {| odata := 0; osize := zlen d; onext := if nx then Z.of_nat (nodes (BDict d)) else 0; otyp := TDict |} :: fld d (p + 1).
Proof. reflexivity. Qed.

Definition hn (z : Z) (l : list obj) : list obj := match l with o :: t => setNext z o :: t | [] => [] end.

Lemma fl_hn v p nx : fl v p nx = hn (if nx then Z.of_nat (nodes v) else 0) (fl v p false).
Proof. destruct v; reflexivity. Qed.

Lemma hn_hn a b l : hn a (hn b l) = hn a l.
Proof. destruct l; reflexivity. Qed.

Definition lnodes (l : list bval) : nat := list_sum (map nodes l).
Definition dnodes (d : list (list Z * bval)) : nat := list_sum (map (fun kv => S (nodes (snd kv))) d).

Lemma nodes_pos v : (1 <= nodes v)%nat.
Proof. destruct v; simpl; lia. Qed.

Lemma fl_length v : forall p nx, length (fl v p nx) = nodes v.
Proof.
  induction v as [n|s|l IH|d IH] using bval_ind'; intros p nx; [reflexivity|reflexivity| |].
  - rewrite fl_list. cbn [length nodes]. f_equal. generalize (p + 1). clear p nx.
    induction IH as [|v l H IH' IHl]; intros p; [reflexivity|]. cbn [fll map]. rewrite app_length, H, IHl. reflexivity.
  - rewrite fl_dict. cbn [length nodes]. f_equal. generalize (p + 1). clear p nx.
    induction IH as [|[k v] d H IH' IHd]; intros p; [reflexivity|]. cbn [fld map length]. rewrite app_length, H, IHd.
    reflexivity.
Qed.

Lemma fll_length l p : length (fll l p) = lnodes l.
Proof. revert p. induction l as [|v l IH]; intros p; [reflexivity|]. cbn [fll]. rewrite app_length, fl_length, IH. reflexivity. Qed.
Lemma fld_length d p : length (fld d p) = dnodes d.
Proof.
  revert p. induction d as [|[k v] d IH]; intros p; [reflexivity|]. cbn [fld length].
  rewrite app_length, fl_length, IH. reflexivity.
Qed.

(** ** First byte of an encoding *)

Lemma bencode_hd v : bval_ok v -> exists h t, bencode v = h :: t /\ h <> 101.
Proof.
  destruct v as [n|s|l|d]; intros H.
  - do 2 eexists. split; [reflexivity|discriminate].
  - cbn [bencode]. destruct (toString_hd (zlen s)) as (x & t & E & D); [apply zlen_nonneg|]. rewrite E.
    do 2 eexists. split; [reflexivity|]. apply isDigit_range in D. lia.
  - do 2 eexists. split; [reflexivity|discriminate].
  - do 2 eexists. split; [reflexivity|discriminate].
Qed.

Lemma benkey_hd k : exists h t, benkey k = h :: t /\ isDigit h = true.
Proof.
  unfold benkey. destruct (toString_hd (zlen k)) as (x & t & E & D); [apply zlen_nonneg|]. rewrite E.
  exists x, (t ++ [58] ++ k). auto.
Qed.

(** ** Strings and numbers *)

Section Parse.
Variable m : list Z.
Variable bodyEnd : Z.
Hypothesis small : bodyEnd < 2147483648.

Lemma parseString_ok objs p k : at_ m p (benkey k) -> 0 <= p -> p + zlen (benkey k) <= bodyEnd ->
  parseString m bodyEnd objs p = Val (true, objs ++ [keyObj k p 0], p + zlen (benkey k)).
Proof using small.
  intros H Hp Hb. unfold parseString. unfold benkey in *.
  pose proof (zlen_nonneg k) as Zk.
  destruct (memFrom_at m p _ H) as [post E].
  { destruct (toString_hd (zlen k) Zk) as (x & t & -> & _). discriminate. }
  rewrite E. rewrite !zlen_app, zlen_cons, zlen_nil in Hb.
  pose proof (zlen_nonneg (toString (zlen k))) as Zt.
  rewrite <- app_assoc. cbn [app].
  rewrite strtol_toString by (try reflexivity; lia).
  rewrite i32_id by lia. apply at_app in H as [_ H]. cbn [app] in H.
  fold (zlen (toString (zlen k))). rewrite (rdAt_at _ _ _ _ H). cbn [obind].
  change (58 =? 58) with true. cbn [negb orb].
  destruct (Z.ltb_spec (bodyEnd - (p + zlen (toString (zlen k)))) (zlen k)); [lia|].
  unfold keyObj. assert (EL : zlen (toString (zlen k) ++ [58] ++ k) = zlen (toString (zlen k)) + 1 + zlen k).
  { rewrite !zlen_app. change (zlen [58]) with 1. lia. }
  cbn [app] in EL. rewrite EL. veq.
Qed.

Lemma scanInt_ok d : forall p size rest, forallb isDigit d = true -> 0 <= size ->
  p + zlen d < bodyEnd ->
  scanInt bodyEnd (d ++ 101 :: rest) p size = Val (101, p + zlen d, size + zlen d).
Proof.
  induction d as [|c d IH]; intros p size rest H Hs Hp; cbn [app scanInt].
  - change (isDigit 101) with false. change (101 =? 45) with false. cbn [orb andb]. rewrite zlen_nil. veq.
  - cbn [forallb] in H. apply andb_true_iff in H as [H1 H2]. rewrite zlen_cons in *. pose proof (zlen_nonneg d).
    rewrite H1. destruct (Z.eqb_spec p bodyEnd); [lia|]. cbn [orb andb negb].
    rewrite IH by (assumption || lia). veq.
Qed.

Lemma parseInt_ok objs p n : at_ m p (bencode (BInt n)) -> 0 <= n -> 0 <= p -> p + zlen (bencode (BInt n)) <= bodyEnd ->
  parseInt m bodyEnd objs p = Val (true, objs ++ fl (BInt n) p false, p + zlen (bencode (BInt n))).
Proof.
  intros H Hn Hp Hb. unfold parseInt. cbn [bencode] in *. apply at_app in H as [_ H].
  destruct (memFrom_at m (p + 1) _ H) as [post E].
  { destruct (toString_hd n Hn) as (x & t & -> & _). discriminate. }
  rewrite E. rewrite !zlen_app, !zlen_cons, zlen_nil in *.
  rewrite <- app_assoc. cbn [app]. destruct (toString_ok n Hn) as (_ & D & _).
  rewrite scanInt_ok by (assumption || lia). cbn [obind]. change (101 =? 101) with true. cbn [negb fl].
  rewrite Z.add_0_l. veq.
Qed.

Lemma modify_head objs o t f : modify (length objs) f (objs ++ o :: t) = objs ++ f o :: t.
Proof.
  unfold modify. rewrite app_nth2, Nat.sub_diag by lia. cbn [nth].
  rewrite <- (Nat.add_0_r (length objs)) at 1. rewrite upd_app_r. reflexivity.
Qed.

Lemma modify_hn objs z v p : modify (length objs) (setNext z) (objs ++ fl v p false) = objs ++ hn z (fl v p false).
Proof. destruct v; cbn [fl]; apply modify_head. Qed.

Lemma modify_hn2 objs z z' v p : modify (length objs) (setNext z) (objs ++ hn z' (fl v p false)) = objs ++ hn z (fl v p false).
Proof. destruct v; cbn [fl hn]; rewrite modify_head; reflexivity. Qed.

Definition parses (v : bval) : Prop := forall f objs p c,
  at_ m p (bencode v ++ [c]) -> 0 <= p -> p + zlen (bencode v) <= bodyEnd -> bval_ok v ->
  (zlen objs + Z.of_nat (nodes v) < 65536) -> (2 * nodes v <= f)%nat ->
  exists z, internalParse m bodyEnd f objs p = Val (Some (length objs), objs ++ hn z (fl v p false), p + zlen (bencode v)).

Lemma zlen_hn z l : zlen (hn z l) = zlen l.
Proof. destruct l; reflexivity. Qed.

Lemma zlen_fl v p nx : zlen (fl v p nx) = Z.of_nat (nodes v).
Proof. unfold zlen. now rewrite fl_length. Qed.

Lemma fold_and_cons {A} (P : A -> Prop) a l : fold_right and True (map P (a :: l)) <-> P a /\ fold_right and True (map P l).
Proof. reflexivity. Qed.

Lemma listLoop_ok l : Forall parses l -> forall f objs p count,
  at_ m p (concat (map bencode l) ++ [101]) -> 0 <= p -> p + zlen (concat (map bencode l)) < bodyEnd ->
  fold_right and True (map bval_ok l) ->
  zlen objs + Z.of_nat (lnodes l) < 65536 -> (2 * lnodes l + 1 <= f)%nat ->
  listLoop m bodyEnd f objs p count = Val (objs ++ fll l p, p + zlen (concat (map bencode l)), count + zlen l).
Proof using small.
  induction 1 as [|v l Hv Hl IH]; intros f objs p count Hat Hp Hb Hok Hn Hf; (destruct f as [|f]; [lia|]); rewrite listLoop_S.
  - cbn [map concat app] in *. rewrite (notEnd_at _ _ _ _ _ Hat). change (101 =? 101) with true. cbn [negb andb obind].
    cbn [fll]. rewrite app_nil_r, !zlen_nil. veq.
  - apply fold_and_cons in Hok as [Hok1 Hok2]. cbn [map concat] in *.
    unfold lnodes in *. cbn [map] in *. change (list_sum (nodes v :: map nodes l)) with (nodes v + list_sum (map nodes l))%nat in *.
    rewrite zlen_app in Hb. pose proof (zlen_nonneg (concat (map bencode l))) as Zc.
    rewrite <- app_assoc in Hat. pose proof Hat as Hat0.
    destruct (bencode_hd v Hok1) as (h & t & Eh & Nh).
    assert (Hat1 : at_ m p (h :: t ++ concat (map bencode l) ++ [101])) by (rewrite Eh in Hat; exact Hat).
    assert (0 < zlen (bencode v)) by (rewrite Eh, zlen_cons; pose proof (zlen_nonneg t); lia).
    rewrite (notEnd_at _ _ _ _ _ Hat1). cbn [obind].
    destruct (Z.eqb_spec h 101); [lia|]. destruct (Z.ltb_spec p bodyEnd); [|lia]. cbn [negb andb].
    (* the byte after v *)
    assert (N : exists c', at_ m p (bencode v ++ [c']) /\ exists r, at_ m (p + zlen (bencode v)) (c' :: r) /\
      negb (c' =? 101) && (p + zlen (bencode v) <? bodyEnd) = negb (isnil l)).
    { destruct l as [|v2 l2].
      - cbn [map concat app] in *. exists 101. split; [|exists []].
        + exact Hat0.
        + apply at_app in Hat0 as [_ A]. split; [exact A|]. reflexivity.
      - cbn [map concat] in *. apply fold_and_cons in Hok2 as [Hok2 _].
        destruct (bencode_hd v2 Hok2) as (h2 & t2 & Eh2 & Nh2).
        exists h2. rewrite Eh2 in Hat0. split.
        + change (h2 :: t2) with ([h2] ++ t2) in Hat0. rewrite <- !app_assoc in Hat0. rewrite app_assoc in Hat0.
          apply at_app in Hat0 as [A _]. exact A.
        + apply at_app in Hat0 as [_ A]. rewrite <- !app_assoc in A. cbn [app] in A. eexists. split; [exact A|].
          rewrite Eh2 in Zc, Hb. cbn [app] in Hb. rewrite zlen_cons in Hb.
          pose proof (zlen_nonneg (t2 ++ concat (map bencode l2))).
          destruct (Z.eqb_spec h2 101); [lia|]. destruct (Z.ltb_spec (p + zlen (bencode v)) bodyEnd); [|lia]. reflexivity. }
    destruct N as (c' & Hat2 & r & Hat3 & Ne).
    destruct (Hv f objs p c' Hat2 Hp) as [z Ez]; [lia|assumption|lia|lia|]. rewrite Ez. cbn [obind].
    rewrite (notEnd_at _ _ _ _ _ Hat3), Ne. cbn [obind].
    rewrite modify_hn2.
    assert (En : (if negb (isnil l) then u16 (u16 (zlen (objs ++ hn z (fl v p false))) - u16 (zlen objs)) else 0)
                 = (if negb (isnil l) then Z.of_nat (nodes v) else 0)).
    { destruct (negb (isnil l)); [|reflexivity]. rewrite zlen_app, zlen_hn, zlen_fl. pose proof (zlen_nonneg objs). unfold u16. lia. }
    rewrite En. rewrite <- fl_hn. apply at_app in Hat0 as [_ Hat0].
    rewrite (IH f _ _ _ Hat0); try assumption; try lia.
    + cbn [fll]. rewrite <- app_assoc, zlen_app, zlen_cons. veq.
    + rewrite zlen_app, zlen_fl. lia.
    + pose proof (nodes_pos v). lia.
Qed.

Lemma dictLoop_ok d : Forall (fun kv => parses (snd kv)) d -> forall f objs p count,
  at_ m p (concat (map benentry d) ++ [101]) -> 0 <= p -> p + zlen (concat (map benentry d)) < bodyEnd ->
  fold_right and True (map (fun kv => bytes_ok (fst kv) /\ bval_ok (snd kv)) d) ->
  zlen objs + Z.of_nat (dnodes d) < 65536 -> (2 * dnodes d + 1 <= f)%nat ->
  dictLoop m bodyEnd f objs p count = Val (objs ++ fld d p, p + zlen (concat (map benentry d)), count + zlen d).
Proof using small.
  induction 1 as [|[k v] d Hv Hd IH]; intros f objs p count Hat Hp Hb Hok Hn Hf; (destruct f as [|f]; [lia|]); rewrite dictLoop_S.
  - cbn [map concat app] in *. rewrite (notEnd_at _ _ _ _ _ Hat). change (101 =? 101) with true. cbn [negb andb obind].
    cbn [fld]. rewrite app_nil_r, !zlen_nil. veq.
  - apply fold_and_cons in Hok as [[Hok0 Hok1] Hok2]. cbn [map concat fst snd] in *.
    unfold dnodes in *. cbn [map snd] in *.
    change (list_sum (S (nodes v) :: map (fun kv => S (nodes (snd kv))) d)) with (S (nodes v) + list_sum (map (fun kv => S (nodes (snd kv))) d))%nat in *.
    set (sd := list_sum (map (fun kv => S (nodes (snd kv))) d)) in *.
    set (ed := concat (map benentry d)) in *.
    rewrite zlen_app in Hb. change (benentry (k, v)) with (benkey k ++ bencode v) in Hb, Hat. rewrite zlen_app in Hb.
    pose proof (zlen_nonneg ed) as Zc.
    rewrite <- !app_assoc in Hat. pose proof Hat as Hat0.
    destruct (benkey_hd k) as (h & t & Eh & Dh).
    assert (Hat1 : at_ m p (h :: t ++ bencode v ++ ed ++ [101])) by (rewrite Eh in Hat; exact Hat).
    assert (0 < zlen (benkey k)) by (rewrite Eh, zlen_cons; pose proof (zlen_nonneg t); lia).
    destruct (bencode_hd v Hok1) as (hv & tv & Ehv & Nhv).
    assert (0 < zlen (bencode v)) by (rewrite Ehv, zlen_cons; pose proof (zlen_nonneg tv); lia).
    apply isDigit_range in Dh.
    rewrite (notEnd_at _ _ _ _ _ Hat1). cbn [obind].
    destruct (Z.eqb_spec h 101); [lia|]. destruct (Z.ltb_spec p bodyEnd); [|lia]. cbn [negb andb].
    destruct (at_app _ _ _ _ Hat0) as [Hk Hat2].
    rewrite (parseString_ok _ _ k) by (assumption || lia). cbn [obind].
    set (p1 := p + zlen (benkey k)) in *.
    (* the byte after v *)
    assert (N : exists c', at_ m p1 (bencode v ++ [c']) /\ exists r, at_ m (p1 + zlen (bencode v)) (c' :: r) /\
      negb (c' =? 101) && (p1 + zlen (bencode v) <? bodyEnd) = negb (isnil d)).
    { destruct d as [|[k2 v2] d2].
      - unfold ed in *. cbn [map concat app] in *. exists 101. split; [|exists []].
        + exact Hat2.
        + apply at_app in Hat2 as [_ A]. split; [exact A|]. reflexivity.
      - destruct (benkey_hd k2) as (h2 & t2 & Eh2 & Dh2). apply isDigit_range in Dh2.
        assert (Ed : ed = h2 :: t2 ++ bencode v2 ++ concat (map benentry d2)).
        { unfold ed. cbn [map concat]. unfold benentry at 1. cbn [fst snd]. rewrite Eh2. cbn [app]. now rewrite <- app_assoc. }
        rewrite Ed in Hat2, Hb, Zc. exists h2. split.
        + cbn [app] in Hat2.
          match type of Hat2 with at_ _ _ (_ ++ _ :: ?x) => change (h2 :: x) with ([h2] ++ x) in Hat2 end.
          rewrite app_assoc in Hat2. apply at_app in Hat2 as [A _]. exact A.
        + apply at_app in Hat2 as [_ A]. cbn [app] in A. eexists. split; [exact A|].
          rewrite zlen_cons in Hb.
          pose proof (zlen_nonneg (t2 ++ bencode v2 ++ concat (map benentry d2))).
          destruct (Z.eqb_spec h2 101); [lia|]. destruct (Z.ltb_spec (p1 + zlen (bencode v)) bodyEnd); [|lia]. reflexivity. }
    destruct N as (c' & Hat3 & r & Hat4 & Ne). pose proof (zlen_nonneg objs) as Zo.
    destruct (Hv f (objs ++ [keyObj k p 0]) p1 c' Hat3) as [z Ez]; [lia|lia|assumption| |lia|].
    { rewrite zlen_app, zlen_cons, zlen_nil. lia. }
    cbn [snd] in Ez. rewrite Ez. cbn [obind].
    assert (Eu : u16 (zlen (objs ++ [keyObj k p 0])) = zlen objs + 1).
    { rewrite zlen_app, zlen_cons, zlen_nil. unfold u16. lia. }
    rewrite Eu. destruct (Z.eqb_spec (zlen objs + 1) 0); [lia|].
    rewrite (notEnd_at _ _ _ _ _ Hat4), Ne. cbn [obind].
    replace (Z.to_nat (zlen objs + 1 - 1)) with (length objs) by (unfold zlen; lia).
    assert (Em : modify (length objs) (setNext 1) ((objs ++ [keyObj k p 0]) ++ hn z (fl v p1 false))
                 = (objs ++ [keyObj k p 1]) ++ hn z (fl v p1 false)).
    { rewrite <- !app_assoc. cbn [app]. rewrite modify_head. reflexivity. }
    rewrite Em. replace (length (objs ++ [keyObj k p 0])) with (length (objs ++ [keyObj k p 1])) by now rewrite !app_length.
    rewrite modify_hn2.
    assert (En : (if negb (isnil d) then u16 (u16 (zlen ((objs ++ [keyObj k p 1]) ++ hn z (fl v p1 false))) - (zlen objs + 1)) else 0)
                 = (if negb (isnil d) then Z.of_nat (nodes v) else 0)).
    { destruct (negb (isnil d)); [|reflexivity]. rewrite !zlen_app, zlen_cons, zlen_nil, zlen_hn, zlen_fl. unfold u16. lia. }
    rewrite En. rewrite <- fl_hn. apply at_app in Hat2 as [_ Hat2].
    rewrite (IH f _ _ _ Hat2); try assumption; try lia.
    + cbn [fld]. fold ed p1. replace (zlen (benentry (k, v) ++ ed)) with (zlen (benkey k) + zlen (bencode v) + zlen ed).
      2:{ unfold benentry. cbn [fst snd]. rewrite !zlen_app. lia. }
      replace (p + zlen (benentry (k, v))) with (p1 + zlen (bencode v)).
      2:{ unfold benentry, p1. cbn [fst snd]. rewrite !zlen_app. lia. }
      rewrite <- !app_assoc, zlen_cons. cbn [app]. veq; unfold p1; lia.
    + rewrite !zlen_app, zlen_fl, zlen_cons, zlen_nil. lia.
Qed.

Lemma parses_all v : parses v.
Proof using small.
  induction v as [n|s|l IH|d IH] using bval_ind'; intros f objs p c Hat Hp Hb Hok Hn Hf.
  - destruct f as [|f]; [simpl in Hf; lia|]. destruct (at_app _ _ _ _ Hat) as [A _].
    rewrite internalParse_S. rewrite (rdAt_at m p 105 (toString n ++ [101])) by exact A. cbn [obind].
    change (isDigit 105) with false. change (105 =? 105) with true. cbv iota.
    rewrite (parseInt_ok _ _ n) by (try assumption; cbn [bval_ok] in Hok; lia). cbn [obind].
    exists 0. reflexivity.
  - destruct f as [|f]; [simpl in Hf; lia|]. destruct (at_app _ _ _ _ Hat) as [A _].
    change (bencode (BStr s)) with (benkey s) in *. destruct (benkey_hd s) as (h & t & Eh & Dh).
    rewrite internalParse_S. rewrite (rdAt_at m p h t) by (rewrite <- Eh; exact A). cbn [obind]. rewrite Dh.
    rewrite (parseString_ok _ _ s) by assumption. cbn [obind]. exists 0. reflexivity.
  - cbn [nodes] in Hf, Hn. destruct f as [|f]; [lia|]. rewrite bencode_list in *. cbn [bval_ok] in Hok.
    rewrite <- !app_assoc in Hat. rewrite !zlen_app, !zlen_cons, zlen_nil in Hb.
    pose proof Hat as Hat0. cbn [app] in Hat0. apply at_app in Hat as [_ Hat]. cbn [app] in Hat.
    pose proof Hat as HatE. change [101; c] with ([101] ++ [c]) in HatE. rewrite app_assoc in HatE. apply at_app in HatE as [HatE _].
    rewrite internalParse_S. rewrite (rdAt_at _ _ _ _ Hat0). cbn [obind].
    change (isDigit 108) with false. change (108 =? 105) with false. change (108 =? 108) with true. cbv iota.
    change (zlen [108]) with 1 in Hat, HatE.
    rewrite (listLoop_ok l IH f _ _ _ HatE); try assumption; try lia.
    2:{ rewrite zlen_app, zlen_cons, zlen_nil. fold (lnodes l) in Hn. lia. }
    2:{ fold (lnodes l) in Hf. lia. }
    cbn [obind]. unfold closeContainer. apply at_app in Hat as [_ Hat]. apply at_cons in Hat as [_ Hat].
    rewrite (notEnd_at _ _ _ _ _ Hat). cbn [obind].
    rewrite <- app_assoc. cbn [app]. rewrite modify_head. rewrite fl_list.
    assert (EL : zlen (108 :: concat (map bencode l) ++ [101]) = 1 + zlen (concat (map bencode l)) + 1)
      by (rewrite zlen_cons, zlen_app, zlen_cons, zlen_nil; lia).
    rewrite EL. eexists. apply f_equal, pair_eq; [reflexivity|lia].
  - cbn [nodes] in Hf, Hn. destruct f as [|f]; [lia|]. rewrite bencode_dict in *. cbn [bval_ok] in Hok.
    rewrite <- !app_assoc in Hat. rewrite !zlen_app, !zlen_cons, zlen_nil in Hb.
    pose proof Hat as Hat0. cbn [app] in Hat0. apply at_app in Hat as [_ Hat]. cbn [app] in Hat.
    pose proof Hat as HatE. change [101; c] with ([101] ++ [c]) in HatE. rewrite app_assoc in HatE. apply at_app in HatE as [HatE _].
    rewrite internalParse_S. rewrite (rdAt_at _ _ _ _ Hat0). cbn [obind].
    change (isDigit 100) with false. change (100 =? 105) with false. change (100 =? 108) with false. change (100 =? 100) with true. cbv iota.
    change (zlen [100]) with 1 in Hat, HatE.
    rewrite (dictLoop_ok d IH f _ _ _ HatE); try assumption; try lia.
    2:{ rewrite zlen_app, zlen_cons, zlen_nil. fold (dnodes d) in Hn. lia. }
    2:{ fold (dnodes d) in Hf. lia. }
    cbn [obind]. unfold closeContainer. apply at_app in Hat as [_ Hat]. apply at_cons in Hat as [_ Hat].
    rewrite (notEnd_at _ _ _ _ _ Hat). cbn [obind].
    rewrite <- app_assoc. cbn [app]. rewrite modify_head. rewrite fl_dict.
    assert (EL : zlen (100 :: concat (map benentry d) ++ [101]) = 1 + zlen (concat (map benentry d)) + 1)
      by (rewrite zlen_cons, zlen_app, zlen_cons, zlen_nil; lia).
    rewrite EL. eexists. apply f_equal, pair_eq; [reflexivity|lia].
Qed.

End Parse.

(** ** Reading back *)

Section Read.
Variable m : list Z.

Definition ritems (objs : list obj) := fix items (l : list bval) (a : option nat) : Prop :=
  match l, a with
  | [], None => True
  | v :: l', Some j => reads m objs v j /\ items l' (getNextSibling objs j)
  | _, _ => False
  end.
Definition rentries (objs : list obj) := fix items (d : list (list Z * bval)) (a : option nat) : Prop :=
  match d, a with
  | [], None => True
  | (k, v) :: d', Some j =>
    (otyp (nth j objs noObj) = TText /\ itemText m (nth j objs noObj) = Val k) /\
    getNextSibling objs j = Some (S j) /\
    reads m objs v (S j) /\ items d' (getNextSibling objs (S j))
  | _, _ => False
  end.

Lemma reads_list objs l i : reads m objs (BList l) i <->
  (i < length objs)%nat /\ otyp (nth i objs noObj) = TList /\ osize (nth i objs noObj) = zlen l /\ ritems objs l (getFirstItem objs i).
Proof. split; exact (fun H => H). Qed.
Lemma reads_dict objs d i : reads m objs (BDict d) i <->
  (i < length objs)%nat /\ otyp (nth i objs noObj) = TDict /\ osize (nth i objs noObj) = zlen d /\ rentries objs d (getFirstItem objs i).
Proof. split; exact (fun H => H). Qed.

Lemma nth_mid (pre : list obj) o t : nth (length pre) (pre ++ o :: t) noObj = o.
Proof. rewrite app_nth2, Nat.sub_diag by lia. reflexivity. Qed.

Lemma itemText_at o s : at_ m (odata o) s -> osize o = zlen s -> itemText m o = Val s.
Proof.
  intros (pre & post & E & P) S. unfold itemText. rewrite S, P, E, !zlen_app.
  pose proof (zlen_nonneg pre). pose proof (zlen_nonneg post). pose proof (zlen_nonneg s).
  destruct (Z.leb_spec 0 (zlen s)); [|lia]. destruct (Z.leb_spec 0 (zlen pre)); [|lia].
  destruct (Z.leb_spec (zlen pre + zlen s) (zlen pre + (zlen s + zlen post))); [|lia]. cbn [andb].
  f_equal. apply slice_at; unfold zlen; lia.
Qed.

Lemma keyObj_text k p z : at_ m p (benkey k) -> itemText m (keyObj k p z) = Val k.
Proof.
  intros H. apply itemText_at; [|reflexivity]. unfold benkey in H. apply at_app in H as [_ H]. apply at_app in H as [_ H].
  exact H.
Qed.

Lemma next_mid pre o t : getNextSibling (pre ++ o :: t) (length pre) =
  if onext o =? 0 then None else Some (length pre + Z.to_nat (onext o))%nat.
Proof. unfold getNextSibling. rewrite nth_mid. reflexivity. Qed.

Lemma first_mid pre o t : getFirstItem (pre ++ o :: t) (length pre) = if osize o =? 0 then None else Some (S (length pre)).
Proof. unfold getFirstItem. rewrite nth_mid. reflexivity. Qed.

Lemma fl_cons v p nx : exists o t, fl v p nx = o :: t /\ onext o = (if nx then Z.of_nat (nodes v) else 0).
Proof. destruct v; eexists; eexists; split; try reflexivity; reflexivity. Qed.

Definition readable (v : bval) : Prop := forall p z pre post, at_ m p (bencode v) -> bval_ok v ->
  reads m (pre ++ hn z (fl v p false) ++ post) v (length pre).

Lemma next_fl v p nx pre post : getNextSibling (pre ++ fl v p nx ++ post) (length pre) =
  if nx then Some (length pre + nodes v)%nat else None.
Proof.
  destruct (fl_cons v p nx) as (o & t & -> & N). cbn [app]. rewrite next_mid, N. destruct nx; [|reflexivity].
  pose proof (nodes_pos v). destruct (Z.eqb_spec (Z.of_nat (nodes v)) 0); [lia|]. now rewrite Nat2Z.id.
Qed.

Lemma ritems_ok l : Forall readable l -> forall p pre post, at_ m p (concat (map bencode l)) ->
  fold_right and True (map bval_ok l) ->
  ritems (pre ++ fll l p ++ post) l (if isnil l then None else Some (length pre)).
Proof.
  induction 1 as [|v l Hv Hl IH]; intros p pre post Hat Hok; [exact I|].
  apply fold_and_cons in Hok as [Hok1 Hok2]. cbn [isnil fll map concat] in *. apply at_app in Hat as [A B].
  rewrite <- app_assoc. split; [rewrite fl_hn; now apply Hv|]. rewrite next_fl.
  specialize (IH (p + zlen (bencode v)) (pre ++ fl v p (negb (isnil l))) post B Hok2).
  rewrite <- app_assoc in IH. rewrite app_length, fl_length in IH. destruct l; [exact IH|exact IH].
Qed.

Lemma rentries_ok d : Forall (fun kv => readable (snd kv)) d -> forall p pre post, at_ m p (concat (map benentry d)) ->
  fold_right and True (map (fun kv => bytes_ok (fst kv) /\ bval_ok (snd kv)) d) ->
  rentries (pre ++ fld d p ++ post) d (if isnil d then None else Some (length pre)).
Proof.
  induction 1 as [|[k v] d Hv Hd IH]; intros p pre post Hat Hok; [exact I|].
  apply fold_and_cons in Hok as [[Hok0 Hok1] Hok2]. cbn [isnil fld map concat app fst snd] in *.
  apply at_app in Hat as [A B]. pose proof A as A0. unfold benentry in A0. cbn [fst snd] in A0. apply at_app in A0 as [A1 A2].
  set (K := keyObj k p 1). set (F := fl v (p + zlen (benkey k)) (negb (isnil d))).
  set (R := fld d (p + zlen (benentry (k, v)))).
  assert (E1 : pre ++ K :: (F ++ R) ++ post = (pre ++ [K]) ++ F ++ (R ++ post)) by (rewrite <- !app_assoc; reflexivity).
  assert (E2 : pre ++ K :: (F ++ R) ++ post = ((pre ++ [K]) ++ F) ++ R ++ post) by (rewrite <- !app_assoc; reflexivity).
  assert (L1 : length (pre ++ [K]) = S (length pre)) by (rewrite app_length; simpl; lia).
  split; [|split; [|split]].
  - rewrite nth_mid. split; [reflexivity|]. now apply keyObj_text.
  - rewrite next_mid. reflexivity || (cbn [onext K keyObj]; change (1 =? 0) with false; cbv iota; f_equal; change (Z.to_nat 1) with 1%nat; lia).
  - rewrite E1, <- L1. unfold F. rewrite fl_hn. apply Hv; assumption.
  - rewrite E1, <- L1. unfold F. rewrite next_fl. fold F. rewrite <- E1, E2.
    specialize (IH (p + zlen (benentry (k, v))) ((pre ++ [K]) ++ F) post B Hok2). fold R in IH.
    assert (L2 : length ((pre ++ [K]) ++ F) = (length (pre ++ [K]) + nodes v)%nat) by (rewrite app_length; unfold F; rewrite fl_length; lia).
    rewrite L2 in IH. destruct d; exact IH.
Qed.

Lemma readable_all v : readable v.
Proof.
  induction v as [n|s|l IH|d IH] using bval_ind'; intros p z pre post Hat Hok.
  - cbn [fl hn app]. split; [rewrite app_length; simpl; lia|]. rewrite nth_mid. split; [reflexivity|].
    unfold itemBigInt, itemInt. cbn [odata setNext]. cbn [bencode] in Hat. apply at_app in Hat as [_ Hat].
    change (zlen [105]) with 1 in Hat. cbn [bval_ok] in Hok.
    destruct (memFrom_at m _ _ Hat) as [po E]; [destruct (toString n); discriminate|].
    rewrite E, <- app_assoc. cbn [app]. rewrite strtoull_toString by (assumption || reflexivity). split; [reflexivity|].
    intros Hs. rewrite strtol_toString by (reflexivity || lia). reflexivity.
  - cbn [fl hn app]. split; [rewrite app_length; simpl; lia|]. rewrite nth_mid. split; [reflexivity|]. now apply keyObj_text.
  - rewrite fl_list. cbn [hn app]. apply reads_list. split; [rewrite app_length; simpl; lia|].
    rewrite nth_mid, first_mid. cbn [otyp osize setNext]. split; [reflexivity|split; [reflexivity|]].
    rewrite bencode_list in Hat. apply at_app in Hat as [_ Hat]. apply at_app in Hat as [Hat _].
    change (zlen [108]) with 1 in Hat. cbn [bval_ok] in Hok.
    set (o := setNext z _).
    replace (pre ++ o :: fll l (p + 1) ++ post) with ((pre ++ [o]) ++ fll l (p + 1) ++ post) by (rewrite <- !app_assoc; reflexivity).
    pose proof (ritems_ok l IH (p + 1) (pre ++ [o]) post Hat Hok) as R.
    rewrite app_length in R. cbn [length] in R. rewrite Nat.add_1_r in R.
    destruct l as [|v l]; [exact R|]. destruct (Z.eqb_spec (zlen (v :: l)) 0) as [E|E]; [|exact R].
    rewrite zlen_cons in E. pose proof (zlen_nonneg l). lia.
  - rewrite fl_dict. cbn [hn app]. apply reads_dict. split; [rewrite app_length; simpl; lia|].
    rewrite nth_mid, first_mid. cbn [otyp osize setNext]. split; [reflexivity|split; [reflexivity|]].
    rewrite bencode_dict in Hat. apply at_app in Hat as [_ Hat]. apply at_app in Hat as [Hat _].
    change (zlen [100]) with 1 in Hat. cbn [bval_ok] in Hok.
    set (o := setNext z _).
    replace (pre ++ o :: fld d (p + 1) ++ post) with ((pre ++ [o]) ++ fld d (p + 1) ++ post) by (rewrite <- !app_assoc; reflexivity).
    pose proof (rentries_ok d IH (p + 1) (pre ++ [o]) post Hat Hok) as R.
    rewrite app_length in R. cbn [length] in R. rewrite Nat.add_1_r in R.
    destruct d as [|v d]; [exact R|]. destruct (Z.eqb_spec (zlen (v :: d)) 0) as [E|E]; [|exact R].
    rewrite zlen_cons in E. pose proof (zlen_nonneg d). lia.
Qed.

(** ** Lookup by name *)

Definition otype_of (t : kind) : otype :=
  match t with KInt => TNumber | KStr => TText | KList => TList | KDict => TDict end.

Lemma reads_type objs v j : reads m objs v j -> (j < length objs)%nat /\ otyp (nth j objs noObj) = otype_of (kind_of v).
Proof. destruct v; intros (H1 & H2 & _); auto. Qed.

Lemma itemEquals_key o k name : itemText m o = Val k -> itemEquals m o name = Val (list_eqb name k).
Proof.
  intros H. unfold itemEquals. rewrite H. cbn [obind].
  assert (osize o = zlen k) as E.
  { unfold itemText in H. destruct ((0 <=? osize o) && (0 <=? odata o) && (odata o + osize o <=? zlen m)) eqn:C; [|discriminate H].
    injection H as <-. unfold zlen in *. rewrite slice_length by (unfold zlen in *; lia). lia. }
  rewrite E. destruct (Z.eqb_spec (zlen name) (zlen k)) as [L|L]; [reflexivity|]. cbn [negb].
  destruct (list_eqb name k) eqn:Q; [|reflexivity]. apply list_eqb_spec in Q. subst. lia.
Qed.

Lemma typeEqb_kind v t : typeEqb (otype_of (kind_of v)) (otype_of t) = kind_eqb (kind_of v) t.
Proof. destruct v, t; reflexivity. Qed.

Lemma find_ok objs name t d : forall fuel a, rentries objs d a -> (length d <= fuel)%nat ->
  match lookup name t d with
  | Some v => exists j, findFrom fuel m objs a name (otype_of t) = Val (Some j) /\ reads m objs v j
  | None => findFrom fuel m objs a name (otype_of t) = Val None
  end.
Proof.
  induction d as [|[k v] d IH]; intros fuel a H Hf.
  - destruct a; [contradiction|]. cbn [lookup]. destruct fuel; reflexivity.
  - destruct a as [j|]; [|contradiction]. cbn [rentries] in H. destruct H as ([_ T] & _ & R & E).
    destruct fuel as [|fuel]; [simpl in Hf; lia|]. cbn [lookup findFrom].
    destruct (reads_type _ _ _ R) as [L Ty]. replace (Nat.ltb (S j) (length objs)) with true by (symmetry; apply Nat.ltb_lt; lia).
    rewrite (itemEquals_key _ _ name T). cbn [obind]. rewrite Ty, typeEqb_kind.
    destruct (list_eqb name k && kind_eqb (kind_of v) t); [eauto|].
    apply IH; [exact E|simpl in Hf; lia].
Qed.

End Read.

Lemma getObject_ok m objs d i name t fuel : reads m objs (BDict d) i -> (length d <= fuel)%nat ->
  match lookup name t d with
  | Some v => exists j, getObject fuel m objs i name (otype_of t) = Val (Some j) /\ reads m objs v j
  | None => getObject fuel m objs i name (otype_of t) = Val None
  end.
Proof. intros (_ & _ & _ & H) Hf. apply find_ok; assumption. Qed.

(** ** The whole round trip *)

Lemma parse_bencode v c rest fuel len : bval_ok v -> Z.of_nat (nodes v) < 65536 ->
  zlen (bencode v) <= len -> len < 2147483648 -> (2 * nodes v <= fuel)%nat ->
  exists r, parse fuel (bencode v ++ c :: rest) len = Val r /\
    reads (bencode v ++ c :: rest) (pobjs r) v 0 /\ pok r = true /\
    pend r = zlen (bencode v) /\ premaining r = len - zlen (bencode v).
Proof.
  intros Hok Hn Hl Hs Hf. set (m := bencode v ++ c :: rest) in *.
  assert (Hat : at_ m 0 (bencode v ++ [c])).
  { exists [], rest. split; [|reflexivity]. unfold m. rewrite <- app_assoc. reflexivity. }
  destruct (parses_all m len Hs v fuel [] 0 c Hat) as [z E]; try lia; try assumption.
  unfold parse. rewrite E. cbn [obind app]. rewrite Z.add_0_l.
  destruct (at_app _ _ _ _ Hat) as [A _].
  pose proof (readable_all m v 0 z [] [] A Hok) as R. cbn [app length] in R. rewrite app_nil_r in R.
  eexists. split; [reflexivity|]. cbn [pobjs pend premaining pok]. split; [exact R|]. split.
  - destruct v; reflexivity.
  - split; [reflexivity|]. destruct (Z.leb_spec len (zlen (bencode v))); lia.
Qed.

(** Without a readable byte behind it, a list or dictionary makes the parser read outside. *)
Lemma parse_exact_buffer v fuel : bval_ok v -> (exists l, v = BList l) \/ (exists d, v = BDict d) ->
  Z.of_nat (nodes v) < 65536 -> zlen (bencode v) < 2147483648 -> (2 * nodes v <= fuel)%nat ->
  parse fuel (bencode v) (zlen (bencode v)) = Undef.
Proof.
  intros Hok Hc Hn Hs Hf. set (m := bencode v). set (e := zlen m).
  assert (P : forall u, parses m e u) by (intros; apply parses_all; exact Hs).
  assert (EndUndef : notEnd m e e = Undef).
  { unfold notEnd, rdAt, memFrom. fold e. destruct (Z.ltb_spec e e); [lia|]. now rewrite andb_false_r. }
  unfold parse. destruct fuel as [|fuel]; [pose proof (nodes_pos v); lia|].
  destruct Hc as [[l ->]|[d ->]].
  - assert (Hat : at_ m 0 ([108] ++ concat (map bencode l) ++ [101])) by (exists [], []; rewrite app_nil_r; auto).
    assert (EL : e = 1 + zlen (concat (map bencode l)) + 1).
    { unfold e, m. rewrite bencode_list, !zlen_app. change (zlen [108]) with 1. change (zlen [101]) with 1. lia. }
    rewrite internalParse_S, (rdAt_at _ _ _ _ Hat). cbn [obind].
    change (isDigit 108) with false. change (108 =? 105) with false. change (108 =? 108) with true. cbv iota.
    apply at_app in Hat as [_ Hat]. change (zlen [108]) with 1 in Hat. pose proof (zlen_nonneg (concat (map bencode l))).
    cbn [nodes] in Hf, Hn. fold (lnodes l) in Hf, Hn.
    rewrite (listLoop_ok m e Hs l) ; try assumption; try lia.
    2:{ apply Forall_forall. intros; apply P. }
    2:{ cbn [app]. change (zlen [newContainer TList]) with 1. lia. }
    cbn [obind]. unfold closeContainer. rewrite Z.add_0_l. replace (1 + zlen (concat (map bencode l)) + 1) with e by lia.
    rewrite EndUndef. reflexivity.
  - assert (Hat : at_ m 0 ([100] ++ concat (map benentry d) ++ [101])) by (exists [], []; rewrite app_nil_r; auto).
    assert (EL : e = 1 + zlen (concat (map benentry d)) + 1).
    { unfold e, m. rewrite bencode_dict, !zlen_app. change (zlen [100]) with 1. change (zlen [101]) with 1. lia. }
    rewrite internalParse_S, (rdAt_at _ _ _ _ Hat). cbn [obind].
    change (isDigit 100) with false. change (100 =? 105) with false. change (100 =? 108) with false. change (100 =? 100) with true. cbv iota.
    apply at_app in Hat as [_ Hat]. change (zlen [100]) with 1 in Hat. pose proof (zlen_nonneg (concat (map benentry d))).
    cbn [nodes] in Hf, Hn. fold (dnodes d) in Hf, Hn.
    rewrite (dictLoop_ok m e Hs d) ; try assumption; try lia.
    2:{ apply Forall_forall. intros; apply P. }
    2:{ cbn [app]. change (zlen [newContainer TDict]) with 1. lia. }
    cbn [obind]. unfold closeContainer. rewrite Z.add_0_l. replace (1 + zlen (concat (map benentry d)) + 1) with e by lia.
    rewrite EndUndef. reflexivity.
Qed.

(** ** Hostile inputs *)

(** "d-4:" is parsed forever. *)
Lemma negative_key_loops rest : forall fuel objs, internalParse (100 :: 45 :: 52 :: 58 :: rest) 4 fuel objs 0 = NoEnd
  /\ (forall objs count, dictLoop (100 :: 45 :: 52 :: 58 :: rest) 4 fuel objs 1 count = NoEnd).
Proof.
  set (m := 100 :: 45 :: 52 :: 58 :: rest).
  assert (A0 : at_ m 0 [100]) by (exists [], (45 :: 52 :: 58 :: rest); auto).
  assert (A1 : at_ m 1 [45;52;58]) by (exists [100], rest; auto).
  assert (A3 : at_ m 3 [58]) by (exists [100;45;52], rest; auto).
  induction fuel as [|fuel IH]; intros objs; [split; reflexivity|]. split.
  - rewrite internalParse_S, (rdAt_at _ _ _ _ A0). cbn [obind].
    change (isDigit 100) with false. change (100 =? 105) with false. change (100 =? 108) with false.
    change (100 =? 100) with true. cbv iota. change (0 + 1) with 1. rewrite (proj2 (IH objs)). reflexivity.
  - intros objs' count. rewrite dictLoop_S, (notEnd_at _ _ _ _ _ A1). cbn [obind].
    change (negb (negb (45 =? 101) && (1 <? 4))) with false. cbv iota.
    unfold parseString. destruct (memFrom_at m 1 _ A1) as [post E]; [discriminate|]. rewrite E.
    change (strtol ([45;52;58] ++ post)) with (Some (-4, 2%nat)). cbv iota beta.
    change (1 + Z.of_nat 2) with 3. rewrite (rdAt_at _ _ _ _ A3). cbn [obind].
    change (negb (58 =? 58) || (4 - 3 <? i32 (-4))) with false. cbv iota. cbn [obind].
    change (3 + 1 + i32 (-4)) with 0. rewrite (proj1 (IH _)). reflexivity.
Qed.

Lemma negative_key_diverges rest fuel : parse fuel (100 :: 45 :: 52 :: 58 :: rest) 4 = NoEnd.
Proof. unfold parse. now rewrite (proj1 (negative_key_loops rest fuel [])). Qed.

(** A text with a length one too large is accepted and ends one byte outside. *)
Lemma long_text s x rest fuel : zlen s < 2147483640 - zlen (toString (zlen s + 1)) ->
  let data := toString (zlen s + 1) ++ [58] ++ s in
  exists r, parse (S fuel) (data ++ x :: rest) (zlen data) = Val r /\ pok r = true /\
    exists o, pobjs r = [o] /\ otyp o = TText /\ itemText (data ++ x :: rest) o = Val (s ++ [x]).
Proof.
  intros Hs data. set (k := s ++ [x]). set (m := data ++ x :: rest).
  assert (Zk : zlen k = zlen s + 1) by (unfold k; rewrite zlen_app; reflexivity).
  assert (Ek : data ++ [x] = benkey k).
  { unfold benkey, data. rewrite Zk. unfold k. now rewrite <- !app_assoc. }
  assert (Hat : at_ m 0 (benkey k)).
  { exists [], rest. split; [|reflexivity]. rewrite <- Ek. unfold m. rewrite <- app_assoc. reflexivity. }
  pose proof (zlen_nonneg s) as Z0.
  assert (Zd : zlen data = zlen (toString (zlen s + 1)) + 1 + zlen s).
  { unfold data. rewrite !zlen_app. change (zlen [58]) with 1. lia. }
  pose proof (zlen_nonneg (toString (zlen s + 1))) as Z1.
  destruct (benkey_hd k) as (h & t & Eh & Dh).
  unfold parse. rewrite internalParse_S. rewrite (rdAt_at m 0 h t) by (rewrite <- Eh; exact Hat). cbn [obind]. rewrite Dh.
  unfold parseString. unfold benkey in Hat.
  destruct (memFrom_at m 0 _ Hat) as [post E].
  { rewrite Zk. destruct (toString_hd (zlen s + 1)) as (y & u & -> & _); [lia|discriminate]. }
  rewrite E, <- app_assoc. cbn [app]. rewrite strtol_toString by (try reflexivity; lia).
  rewrite i32_id by lia. pose proof Hat as Hat0. apply at_app in Hat as [_ Hat]. rewrite Z.add_0_l in *.
  fold (zlen (toString (zlen k))). cbn [app] in Hat. rewrite (rdAt_at _ _ _ _ Hat). cbn [obind].
  change (58 =? 58) with true. cbn [negb orb]. rewrite Zk in *.
  destruct (Z.ltb_spec (zlen data - zlen (toString (zlen s + 1))) (zlen s + 1)); [lia|].
  cbn [obind app]. eexists. split; [reflexivity|]. cbn [pok pobjs]. split; [reflexivity|].
  eexists. split; [reflexivity|]. split; [reflexivity|]. apply itemText_at; [|cbn [osize]; lia].
  cbn [odata]. apply at_app in Hat0 as [_ Hat0]. apply at_app in Hat0 as [_ Hat0]. exact Hat0.
Qed.
