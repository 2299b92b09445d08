(** Proofs about the search for routers *)
From Verif Require Import Base BaseLemmas Dec DecLemmas XmlModel XmlProps DiscoveryModel DiscoverySpec.
From Coq Require Import String Ascii.
From Coq Require Import List.
Close Scope string_scope.
Import ListNotations.

(** ** Addresses *)
Lemma firstOf_app f a c b : (forall x, In x a -> f x = false) -> f c = true -> firstOf f (a ++ c :: b) = Some (length a).
Proof.
  induction a as [|x a IH]; intros H C; cbn; [now rewrite C|]. rewrite (H x (or_introl eq_refl)), IH; auto. intros y Y. apply H. now right.
Qed.

Lemma firstOf_none f a : (forall x, In x a -> f x = false) -> firstOf f a = None.
Proof. induction a as [|x a IH]; intros H; cbn; [reflexivity|]. rewrite (H x (or_introl eq_refl)), IH; auto. intros y Y. apply H. now right. Qed.

Lemma firstOf_some f l k : firstOf f l = Some k -> (k < length l)%nat /\ (forall x, In x (firstn k l) -> f x = false) /\ exists c t, skipn k l = c :: t /\ f c = true.
Proof.
  revert k. induction l as [|x l IH]; intros k H; cbn in H; [discriminate|]. destruct (f x) eqn:F.
  - injection H as <-. cbn. split; [lia|]. split; [tauto|]. exists x, l. auto.
  - destruct (firstOf f l) as [j|] eqn:E; [|discriminate]. injection H as <-. destruct (IH j eq_refl) as (A & B & C). cbn. split; [lia|]. split; [|exact C]. intros y [<-|Y]; auto.
Qed.

Lemma firstOf_none' f l : firstOf f l = None -> forall x, In x l -> f x = false.
Proof.
  induction l as [|y l IH]; intros H x []; cbn in H; destruct (f y) eqn:F; try discriminate; [congruence|]. destruct (firstOf f l); [discriminate|]. auto.
Qed.

Lemma substr_skip pos n l : (pos <= length l)%nat -> substr pos n l = Some (match n with Some k => firstn k (skipn pos l) | None => skipn pos l end).
Proof. intros H. unfold substr. destruct (Nat.leb_spec pos (length l)); [reflexivity|lia]. Qed.

(** The same with what follows the protocol *)
Definition parseRest (protocol r : list Z) : url :=
  let a := firstOf (Z.eqb 58) r in let b := firstOf (Z.eqb 47) r in
  {| pProtocol := protocol;
     pAddress := match a, b with None, None => r | Some a, None => firstn a r | None, Some b => firstn b r | Some a, Some b => firstn (Nat.min a b) r end;
     pPort := match a with None => None | Some a => Some (portOf (match b with Some b => if (a + 1 <=? b)%nat then firstn (b - (a + 1)) (skipn (a + 1) r) else skipn (a + 1) r | None => skipn (a + 1) r end)) end;
     pPath := match b with None => [] | Some b => skipn b r end |}.

Definition begins (s : list Z) : nat * list Z := match firstOf ofProtocol s with Some e => ((e + 3)%nat, firstn e s) | None => (O, []) end.

Lemma skipn_add {A} a b (l : list A) : skipn (a + b) l = skipn b (skipn a l).
Proof. revert l. induction a as [|a IH]; intros l; [reflexivity|]. destruct l; cbn; [now rewrite skipn_nil|apply IH]. Qed.

Lemma parse_rest s : parseUrl s = if (fst (begins s) <=? length s)%nat then Some (parseRest (snd (begins s)) (skipn (fst (begins s)) s)) else None.
Proof.
  unfold parseUrl. fold (begins s). destruct (begins s) as (a, p). cbn [fst snd]. unfold findFrom, parseRest. destruct (Nat.leb_spec a (length s)) as [L|L].
  - set (r := skipn a s). assert (LR : length r = (length s - a)%nat) by apply skipn_length.
    destruct (firstOf (Z.eqb 58) r) as [i|] eqn:I, (firstOf (Z.eqb 47) r) as [j|] eqn:J; rewrite !substr_skip by lia; fold r;
      try (apply firstOf_some in I as (I1 & _)); try (apply firstOf_some in J as (J1 & _)); rewrite ?substr_skip by lia.
    + rewrite Nat.add_min_distr_l. replace (a + Nat.min i j - a)%nat with (Nat.min i j) by lia. replace (a + i + 1)%nat with (a + (i + 1))%nat by lia. rewrite (skipn_add a (i + 1)), (skipn_add a j). fold r.
      replace (a + (i + 1) <=? a + j)%nat with (i + 1 <=? j)%nat by (destruct (Nat.leb_spec (i + 1) j), (Nat.leb_spec (a + (i + 1)) (a + j)); auto; lia).
      destruct (i + 1 <=? j)%nat; [replace (a + j - (a + (i + 1)))%nat with (j - (i + 1))%nat by lia|]; reflexivity.
    + replace (a + i - a)%nat with i by lia. replace (a + i + 1)%nat with (a + (i + 1))%nat by lia. rewrite (skipn_add a (i + 1)). reflexivity.
    + replace (a + j - a)%nat with j by lia. rewrite (skipn_add a j). reflexivity.
    + reflexivity.
  - rewrite (skipn_all2 s) by lia. cbn. unfold substr. destruct (Nat.leb_spec a (length s)); [lia|reflexivity].
Qed.

Lemma eq_false c x : c <> x -> Z.eqb c x = false.
Proof. apply Z.eqb_neq. Qed.

Lemma plain_no l : plain l -> (forall x, In x l -> ofProtocol x = false) /\ (forall x, In x l -> (58 =? x) = false) /\ (forall x, In x l -> (47 =? x) = false).
Proof.
  intros (A & B). assert (C : forall x, In x l -> x <> 58 /\ x <> 47) by (intros x X; split; intros ->; contradiction). unfold ofProtocol.
  repeat split; intros x X; destruct (C x X); [apply orb_false_iff; split|..]; apply Z.eqb_neq; auto.
Qed.

Lemma portOf_toString p : 0 <= p <= 65535 -> portOf (toString p) = p.
Proof. intros H. unfold portOf. rewrite strtoull_toString by (try lia; reflexivity). unfold u16. apply Z.mod_small. lia. Qed.

Lemma digits_plain p : 0 <= p -> plain (toString p).
Proof.
  intros H. destruct (toString_ok p H) as (_ & B & _). rewrite forallb_forall in B. split; intros X; apply B in X; discriminate X.
Qed.

Lemma begins_protocol p r : plain p -> begins (p ++ 58 :: 47 :: 47 :: r) = ((length p + 3)%nat, p) /\ skipn (length p + 3) (p ++ 58 :: 47 :: 47 :: r) = r /\ (length p + 3 <= length (p ++ 58%Z :: 47%Z :: 47%Z :: r))%nat.
Proof.
  intros P. destruct (plain_no p P) as (A & _). unfold begins. rewrite firstOf_app by auto. split; [|split].
  - rewrite firstn_app, Nat.sub_diag, firstn_all. cbn. now rewrite app_nil_r.
  - rewrite skipn_add, skipn_app, skipn_all, Nat.sub_diag. reflexivity.
  - rewrite app_length. cbn. lia.
Qed.

Lemma rest_full proto addr port path : plain addr -> 0 <= port <= 65535 -> path = [] \/ (exists t, path = 47 :: t) ->
  parseRest proto (addr ++ 58 :: toString port ++ path) = {| pProtocol := proto; pAddress := addr; pPort := Some port; pPath := path |}.
Proof.
  intros A P Q. destruct (plain_no addr A) as (_ & A1 & A2). destruct (digits_plain port ltac:(lia)) as (D1 & D2). unfold parseRest.
  rewrite firstOf_app by (auto; reflexivity). assert (PD : portOf (toString port) = port) by now apply portOf_toString. set (d := toString port) in *. clearbody d.
  assert (F1 : firstn (length addr) (addr ++ 58 :: d ++ path) = addr) by (rewrite firstn_app, Nat.sub_diag, firstn_all; cbn; apply app_nil_r).
  assert (F2 : skipn (length addr + 1) (addr ++ 58 :: d ++ path) = d ++ path) by (rewrite skipn_add, skipn_app, skipn_all, Nat.sub_diag; reflexivity).
  assert (N : forall x, In x (addr ++ 58 :: d) -> (47 =? x) = false) by (intros x X; apply in_app_or in X; destruct X as [X|[<-|X]]; auto; apply Z.eqb_neq; intros <-; contradiction).
  destruct Q as [->|(t & ->)].
  - rewrite app_nil_r in *. rewrite (firstOf_none (Z.eqb 47)) by exact N. rewrite F1, F2, PD. reflexivity.
  - replace (addr ++ 58 :: d ++ 47 :: t) with ((addr ++ 58 :: d) ++ 47 :: t) in * by (rewrite <- app_assoc; reflexivity).
    rewrite (firstOf_app (Z.eqb 47)) by (auto; reflexivity). rewrite app_length. cbn [length]. replace (Nat.min (length addr) (length addr + S (length d))) with (length addr) by lia. rewrite F1.
    destruct (Nat.leb_spec (length addr + 1) (length addr + S (length d))); [|lia]. rewrite F2. replace (length addr + S (length d) - (length addr + 1))%nat with (length d) by lia.
    rewrite firstn_app, Nat.sub_diag, firstn_all. cbn [firstn]. rewrite app_nil_r, PD.
    replace (length addr + S (length d))%nat with (length (addr ++ 58 :: d)) by (rewrite app_length; reflexivity). rewrite skipn_app, skipn_all, Nat.sub_diag. reflexivity.
Qed.

(** ** The description *)
Definition inDoc (els : list xel) (t : list Z) : Prop := t = [] \/ exists e, In e els /\ t = xname e.

Lemma xvalue_in els i v : xvalue els i = Ok v -> inDoc els v.
Proof.
  unfold xvalue. destruct (Nat.ltb_spec (i + Z.to_nat (xattrs (atEl i els)) + 1) (length els)) as [L|L]; [|discriminate]. intros E. injection E as <-. destruct (_ || _); [right|now left]. eexists. split; [|reflexivity]. now apply nth_In.
Qed.

Lemma xvalueNamed_in els i n v : xvalueNamed els i n = Ok v -> inDoc els v.
Proof.
  unfold xvalueNamed. destruct (firstNamed els i n) as [[j|]|]; cbn [bind]; intros E; [now apply xvalue_in in E|injection E as <-; now left|discriminate].
Qed.

Definition goodService (els : list xel) (p : list Z * list Z) : Prop := fst p <> [] /\ snd p <> [] /\ inDoc els (fst p) /\ inDoc els (snd p).

Lemma setService_good els k v m : goodService els (k, v) -> Forall (goodService els) m -> Forall (goodService els) (setService k v m).
Proof.
  intros G F. induction m as [|(a, b) m IH]; cbn; [constructor; [exact G|constructor]|]. inversion F; subst. destruct (list_eqb a k) eqn:E.
  - apply list_eqb_spec in E. subst. constructor; [exact G|assumption].
  - constructor; auto.
Qed.

Lemma setService_keys k v m : NoDup (map fst m) -> NoDup (map fst (setService k v m)) /\ (forall x, In x (map fst (setService k v m)) -> In x (map fst m) \/ x = k).
Proof.
  induction m as [|(a, b) m IH]; cbn; intros N.
  - split; [repeat constructor; intros []|]. intros x [<-|[]]. auto.
  - inversion N; subst. destruct (IH H2) as (A & B). destruct (list_eqb a k) eqn:E; cbn.
    + split; [exact N|]. intros x [<-|X]; auto.
    + split; [|intros x [<-|X]; [auto|]; destruct (B x X); auto]. constructor; [|exact A]. intros X. destruct (B a X) as [Y| ->]; [contradiction|]. rewrite list_eqb_refl in E. discriminate.
Qed.

Definition Services (els : list xel) (m : list (list Z * list Z)) : Prop := Forall (goodService els) m /\ NoDup (map fst m).

Lemma serviceLoop_good els : forall f a m m', Services els m -> serviceLoop f els a m = Ok m' -> Services els m'.
Proof.
  induction f as [|f IH]; intros [i|] m m' G E; cbn [serviceLoop] in E; try discriminate; try (injection E as <-; exact G).
  destruct (xvalueNamed els i _) as [ty|] eqn:T; cbn [bind] in E; [|discriminate]. destruct (xvalueNamed els i (txt "controlURL"%string)) as [c|] eqn:C; cbn [bind] in E; [|discriminate].
  destruct (nextNamed els i _) as [n|]; cbn [bind] in E; [|discriminate]. eapply IH; [|exact E].
  destruct ty as [|x ty]; [exact G|]. destruct c as [|y c]; [exact G|]. destruct G as (G1 & G2). split; [|now apply setService_keys]. apply setService_good; [|exact G1].
  repeat split; try discriminate; cbn [fst snd]; eapply xvalueNamed_in; eassumption.
Qed.

Lemma deviceLoop_good els : forall f a nm m r, Services els m -> inDoc els nm -> deviceLoop f els a nm m = Ok r -> inDoc els (fst r) /\ Services els (snd r).
Proof.
  induction f as [|f IH]; intros [i|] nm m r G N E; cbn [deviceLoop] in E; try discriminate; try (injection E as <-; auto).
  assert (NM : forall v, match nm with [] => xvalueNamed els i (txt "friendlyName"%string) | _ => Ok nm end = Ok v -> inDoc els v) by (intros v V; destruct nm; [now apply xvalueNamed_in in V|injection V as <-; exact N]).
  destruct (match nm with [] => _ | _ => _ end) as [nm'|]; cbn [bind] in E; [|discriminate]. specialize (NM nm' eq_refl).
  destruct (firstNamed els i (txt "serviceList"%string)) as [sl|]; cbn [bind] in E; [|discriminate].
  assert (SM : forall v, match sl with Some s => bind (firstNamed els s (txt "service"%string)) (fun n => serviceLoop (S (List.length els)) els n m) | None => Ok m end = Ok v -> Services els v).
  { intros v V. destruct sl as [s|]; [|now injection V as <-]. destruct (firstNamed els s _) as [n|]; cbn [bind] in V; [|discriminate]. eapply serviceLoop_good; eassumption. }
  destruct (match sl with Some _ => _ | None => _ end) as [m'|]; cbn [bind] in E; [|discriminate]. specialize (SM m' eq_refl).
  destruct (firstNamed els i (txt "deviceList"%string)) as [dl|]; cbn [bind] in E; [|discriminate].
  assert (DM : forall v, match dl with Some d => bind (firstNamed els d (txt "device"%string)) (fun n => deviceLoop f els n nm' m') | None => Ok (nm', m') end = Ok v -> inDoc els (fst v) /\ Services els (snd v)).
  { intros v V. destruct dl as [d|]; [|injection V as <-; auto]. destruct (firstNamed els d _) as [n|]; cbn [bind] in V; [|discriminate]. eapply IH; eassumption. }
  destruct (match dl with Some _ => _ | None => _ end) as [r'|]; cbn [bind] in E; [|discriminate]. destruct (DM r' eq_refl) as (D1 & D2).
  destruct (nextNamed els i _) as [n|]; cbn [bind] in E; [|discriminate]. eapply IH; eassumption.
Qed.


Section Ends.
  Variables (doc : list Z) (els : list xel).
  Hypothesis P : parseXml doc = Some els.

  Lemma findNamed_after name : forall f a k, match a with None => True | Some i => (k < i < length els)%nat /\ (length els <= i + f)%nat end ->
    exists r, findNamed f els a name = Ok r /\ match r with None => True | Some i => (k < i < length els)%nat end.
  Proof.
    induction f as [|f IH]; intros [i|] k H; try (exists None; split; [reflexivity|exact I]).
    - lia.
    - destruct H as [H1 H2]. cbn [findNamed]. destruct (Nat.ltb_spec i (length els)); [|lia]. destruct (list_eqb _ name).
      + exists (Some i). auto.
      + apply IH. destruct (nextSibling els i) as [j|] eqn:NS; [|exact I]. pose proof (C73_links doc els i j P ltac:(lia) (or_introl NS)). lia.
  Qed.

  Lemma first_after i name : (i < length els)%nat -> exists r, firstNamed els i name = Ok r /\ match r with None => True | Some j => (i < j < length els)%nat end.
  Proof.
    intros L. unfold firstNamed. apply findNamed_after. destruct (firstNode els i) as [j|] eqn:F; [|exact I]. pose proof (C73_links doc els i j P L (or_intror F)). lia.
  Qed.

  Lemma next_after i name : (i < length els)%nat -> exists r, nextNamed els i name = Ok r /\ match r with None => True | Some j => (i < j < length els)%nat end.
  Proof.
    intros L. unfold nextNamed. apply findNamed_after. destruct (nextSibling els i) as [j|] eqn:F; [|exact I]. pose proof (C73_links doc els i j P L (or_introl F)). lia.
  Qed.

  Hypothesis R : readable els.

  Lemma value_named i name : (i < length els)%nat -> In name texts -> exists v, xvalueNamed els i name = Ok v.
  Proof.
    intros L T. unfold xvalueNamed. destruct (C73_find doc els i name P L) as (r & -> & H). cbn [bind]. destruct r as [j|]; [|eauto]. destruct H as (H1 & H2). apply R; [exact H1|]. now rewrite H2.
  Qed.

  Lemma serviceLoop_ends : forall f a m, match a with None => True | Some i => (i < length els)%nat /\ (length els <= i + f)%nat end -> exists m', serviceLoop f els a m = Ok m'.
  Proof.
    induction f as [|f IH]; intros [i|] m H; cbn [serviceLoop]; eauto; [lia|]. destruct H as (H1 & H2). destruct (value_named i (txt "serviceType"%string) H1 ltac:(right; now left)) as (ty & ->). destruct (value_named i (txt "controlURL"%string) H1 ltac:(right; right; now left)) as (c & ->).
    cbn [bind]. destruct (next_after i (txt "service"%string) H1) as (n & -> & N). cbn [bind]. apply IH. destruct n; [lia|exact I].
  Qed.

  Lemma deviceLoop_ends : forall f a nm m, match a with None => True | Some i => (i < length els)%nat /\ (length els <= i + f)%nat end -> exists r, deviceLoop f els a nm m = Ok r.
  Proof.
    induction f as [|f IH]; intros [i|] nm m H; cbn [deviceLoop]; eauto; [lia|]. destruct H as (H1 & H2).
    assert (NM : exists v, match nm with [] => xvalueNamed els i (txt "friendlyName"%string) | _ => Ok nm end = Ok v) by (destruct nm; [apply value_named; [exact H1|now left]|eauto]). destruct NM as (nm' & ->). cbn [bind].
    destruct (first_after i (txt "serviceList"%string) H1) as (sl & -> & SL). cbn [bind].
    assert (SM : exists v, match sl with Some s => bind (firstNamed els s (txt "service"%string)) (fun n => serviceLoop (S (List.length els)) els n m) | None => Ok m end = Ok v).
    { destruct sl as [s|]; [|eauto]. destruct (first_after s (txt "service"%string) ltac:(lia)) as (n & -> & N). cbn [bind]. apply serviceLoop_ends. destruct n; [lia|exact I]. }
    destruct SM as (m' & ->). cbn [bind]. destruct (first_after i (txt "deviceList"%string) H1) as (dl & -> & DL). cbn [bind].
    assert (DM : exists v, match dl with Some d => bind (firstNamed els d (txt "device"%string)) (fun n => deviceLoop f els n nm' m') | None => Ok (nm', m') end = Ok v).
    { destruct dl as [d|]; [|eauto]. destruct (first_after d (txt "device"%string) ltac:(lia)) as (n & -> & N). cbn [bind]. apply IH. destruct n; [lia|exact I]. }
    destruct DM as (r & ->). cbn [bind]. destruct (next_after i (txt "device"%string) H1) as (n & -> & N). cbn [bind]. apply IH. destruct n; [lia|exact I].
  Qed.

  Lemma parseDevices_ends : exists r, parseDevices els = Ok r.
  Proof.
    assert (L : (0 < length els)%nat) by (pose proof (parse_inv doc els P) as (_ & _ & X); destruct els; [now destruct X|cbn; lia]).
    unfold parseDevices. destruct (first_after 0 (txt "device"%string) L) as (n & -> & N). cbn [bind]. apply deviceLoop_ends. destruct n; [lia|exact I].
  Qed.
End Ends.
