(** C73: reading any text as XML. *)
From Verif Require Import Base BaseLemmas XmlModel XmlProofs.
From Coq Require Import String.
From Coq Require Import List.
Import ListNotations.
Local Close Scope string_scope.

(** [a] is a contiguous part of [doc]. *)
Definition part (doc a : list Z) : Prop := exists x y, doc = x ++ a ++ y.
Definition suffix (doc l : list Z) : Prop := exists x, doc = x ++ l.

Lemma suffix_part doc l : suffix doc l -> part doc l.
Proof. intros (x & ->). exists x, []. now rewrite app_nil_r. Qed.
Lemma part_firstn doc l n : suffix doc l -> part doc (firstn n l).
Proof. intros (x & ->). exists x, (skipn n l). now rewrite firstn_skipn. Qed.
Lemma suffix_skipn doc l n : suffix doc l -> suffix doc (skipn n l).
Proof. intros (x & ->). exists (x ++ firstn n l). rewrite <- app_assoc. now rewrite firstn_skipn. Qed.
Lemma suffix_cons doc c l : suffix doc (c :: l) -> suffix doc l.
Proof. apply (suffix_skipn doc (c :: l) 1). Qed.
Lemma part_part doc a b : part doc a -> part a b -> part doc b.
Proof. intros (x & y & ->) (u & v & ->). exists (x ++ u), (v ++ y). now rewrite !app_assoc. Qed.

Lemma takeW_firstn f l : takeW f l = firstn (List.length (takeW f l)) l.
Proof. induction l as [|c l IH]; cbn; [reflexivity|]. destruct (f c); [cbn; now f_equal|reflexivity]. Qed.
Lemma dropW_skipn f l : exists n, dropW f l = skipn n l.
Proof. induction l as [|c l IH]; [exists O; reflexivity|]. cbn. destruct (f c); [|now exists O]. destruct IH as (n & ->). now exists (S n). Qed.
Lemma part_takeW doc f l : suffix doc l -> part doc (takeW f l).
Proof. rewrite takeW_firstn. apply part_firstn. Qed.
Lemma suffix_dropW doc f l : suffix doc l -> suffix doc (dropW f l).
Proof. intros H. destruct (dropW_skipn f l) as (n & ->). now apply suffix_skipn. Qed.
Lemma removelast_part (l : list Z) : part l (removelast l).
Proof. destruct l as [|c l]; [now exists [], []|]. exists [], [last (c :: l) 0]. cbn [app]. now apply app_removelast_last. Qed.

(** ** What holds of the reader's state *)
Definition links_ok (els : list xel) : Prop := forall i, (i < List.length els)%nat ->
  (0 <= xnext (atEl i els) /\ (xnext (atEl i els) <> 0 -> (i + Z.to_nat (xnext (atEl i els)) < List.length els)%nat)) /\
  (0 <= xchild (atEl i els) /\ (xchild (atEl i els) <> 0 -> (i + Z.to_nat (xchild (atEl i els)) < List.length els)%nat)).
(** The elements added since [n] is the true size may be linked to just before they exist: links
    stay below [n]. *)
Definition links_to (n : nat) (els : list xel) : Prop := forall i, (i < List.length els)%nat ->
  (0 <= xnext (atEl i els) /\ (xnext (atEl i els) <> 0 -> (i + Z.to_nat (xnext (atEl i els)) < n)%nat)) /\
  (0 <= xchild (atEl i els) /\ (xchild (atEl i els) <> 0 -> (i + Z.to_nat (xchild (atEl i els)) < n)%nat)).
Definition inv (doc : list Z) (s : xst) : Prop :=
  Forall (fun e => part doc (xname e)) (xels s) /\ links_to (List.length (xels s)) (xels s) /\
  Forall (fun i => (i < List.length (xels s))%nat) (xstack s) /\ (xprev s = O \/ (xprev s < List.length (xels s))%nat).

Lemma links_more n m els : (n <= m)%nat -> links_to n els -> links_to m els.
Proof. intros L H i I. destruct (H i I) as ((A & B) & C & D). split; split; auto; intros E; [apply B in E|apply D in E]; lia. Qed.
Lemma links_app n els e : links_to n els -> xnext e = 0 -> xchild e = 0 -> links_to n (els ++ [e]).
Proof.
  intros H E1 E2 i I. rewrite app_length in I. cbn [List.length] in I. unfold atEl. destruct (Nat.lt_ge_cases i (List.length els)) as [L|L].
  - rewrite app_nth1 by assumption. apply H, L.
  - replace i with (List.length els) by lia. rewrite app_nth2, Nat.sub_diag by lia. cbn [nth]. rewrite E1, E2. split; split; lia.
Qed.
Lemma onEl_length i f els : List.length (onEl i f els) = List.length els.
Proof. apply upd_length. Qed.
Lemma atEl_onEl i j f els : (i < List.length els)%nat -> atEl j (onEl i f els) = if Nat.eqb j i then f (atEl i els) else atEl j els.
Proof. intros L. unfold atEl, onEl. destruct (Nat.eqb_spec j i); [subst; now apply nth_upd_same|now apply nth_upd_other]. Qed.
Lemma links_onEl n i f els : (i < List.length els)%nat -> links_to n els ->
  (0 <= xnext (f (atEl i els)) /\ (xnext (f (atEl i els)) <> 0 -> (i + Z.to_nat (xnext (f (atEl i els))) < n)%nat)) ->
  (0 <= xchild (f (atEl i els)) /\ (xchild (f (atEl i els)) <> 0 -> (i + Z.to_nat (xchild (f (atEl i els))) < n)%nat)) -> links_to n (onEl i f els).
Proof.
  intros L H A B j J. rewrite onEl_length in J. rewrite atEl_onEl by assumption. destruct (Nat.eqb_spec j i); [subst; auto|apply H, J].
Qed.
Lemma names_onEl doc i f els : (forall e, xname (f e) = xname e) -> (i < List.length els)%nat -> Forall (fun e => part doc (xname e)) els -> Forall (fun e => part doc (xname e)) (onEl i f els).
Proof. intros F L H. apply Forall_upd; [exact H|]. rewrite F. unfold atEl. rewrite Forall_forall in H. apply H. now apply nth_In. Qed.
Lemma keep_link n i els f : (i < List.length els)%nat -> links_to n els -> (forall e, xnext (f e) = xnext e) -> (forall e, xchild (f e) = xchild e) -> links_to n (onEl i f els).
Proof. intros L H E1 E2. apply links_onEl; auto; rewrite ?E1, ?E2; apply H, L. Qed.

Lemma stack_more (els m : nat) (st : list nat) : (els <= m)%nat -> Forall (fun i => (i < els)%nat) st -> Forall (fun i => (i < m)%nat) st.
Proof. intros L. apply Forall_impl. intros. lia. Qed.

Lemma inv_text doc s run : inv doc s -> part doc run -> inv doc (textRun s run).
Proof.
  intros (A & B & C & D) P. unfold textRun. destruct run as [|c run]; [now split|]. destruct (xstack s) as [|top st] eqn:E; [unfold inv; rewrite E; auto|].
  inversion C as [|x y C1 C2]; subst. cbn [xels xstack xprev]. unfold inv. cbn [xels xstack xprev].
  assert (L : List.length (onEl top (setHas true) (xels s) ++ [newEl (c :: run) XString]) = S (List.length (xels s))) by (rewrite app_length, onEl_length; cbn; lia).
  rewrite L. refine (conj _ (conj _ (conj _ _))).
  - apply Forall_app. split; [|now repeat constructor]. apply names_onEl; auto.
  - apply links_app; try reflexivity. apply links_more with (List.length (xels s)); [lia|]. apply keep_link; auto.
  - apply (stack_more (List.length (xels s))); [lia|]. now constructor.
  - lia.
Qed.

Lemma u16_le n : 0 <= n -> 0 <= u16 n <= n.
Proof. intros H. unfold u16. split; [apply Z.mod_pos_bound; lia|]. apply Z.mod_le; lia. Qed.

Lemma inv_open doc s name : inv doc s -> part doc name -> inv doc (openNode s name).
Proof.
  intros (A & B & C & D) P. unfold openNode. cbn zeta. set (n := List.length (xels s)) in *.
  set (els1 := match xprev s with O => xels s | S _ as p => onEl p (setNext (u16 (Z.of_nat n - Z.of_nat p))) (xels s) end).
  assert (I1 : Forall (fun e => part doc (xname e)) els1 /\ links_to (S n) els1 /\ List.length els1 = n).
  { subst els1. destruct (xprev s) as [|p] eqn:E; [split; [exact A|split; [apply links_more with n; [lia|exact B]|reflexivity]]|]. destruct D as [D|D]; [discriminate|].
    split; [|split].
    - apply names_onEl; auto.
    - apply links_onEl; [exact D|apply links_more with n; [lia|exact B]| |]; cbn [setNext xnext xchild].
      + pose proof (u16_le (Z.of_nat n - Z.of_nat (S p)) ltac:(lia)). split; [lia|]. intros _. lia.
      + destruct (B (S p) D) as (_ & B1 & B2). split; [exact B1|]. intros X. apply B2 in X. lia.
    - apply onEl_length. }
  clearbody els1. destruct I1 as (I1 & I2 & I3).
  set (els2 := match xstack s with [] => els1 | top :: _ => if xchild (atEl top els1) =? 0 then onEl top (setChild (u16 (Z.of_nat n - Z.of_nat top))) els1 else els1 end).
  assert (J : Forall (fun e => part doc (xname e)) els2 /\ links_to (S n) els2 /\ List.length els2 = n).
  { subst els2. destruct (xstack s) as [|top st]; [auto|]. inversion C as [|x y C1 C2]; subst. destruct (xchild (atEl top els1) =? 0); [|auto].
    assert (T : (top < List.length els1)%nat) by lia. split; [|split].
    - apply names_onEl; auto.
    - apply links_onEl; [exact T|exact I2| |]; cbn [setChild xnext xchild].
      + apply I2, T.
      + pose proof (u16_le (Z.of_nat n - Z.of_nat top) ltac:(lia)). split; [lia|]. intros _. lia.
    - now rewrite onEl_length. }
  clearbody els2. destruct J as (J1 & J2 & J3). unfold inv. cbn [xels xstack xprev]. rewrite app_length, J3. cbn [List.length]. rewrite Nat.add_1_r.
  refine (conj _ (conj _ (conj _ (or_introl eq_refl)))).
  - apply Forall_app. split; [exact J1|now repeat constructor].
  - now apply links_app.
  - constructor; [lia|]. apply (stack_more n); [lia|exact C].
Qed.

Lemma inv_close doc s : inv doc s -> inv doc (closeNode s).
Proof.
  intros (A & B & C & D). unfold closeNode. destruct (xstack s) as [|top st] eqn:E; [unfold inv; rewrite E; auto|]. inversion C; subst. unfold inv. cbn. auto.
Qed.

Lemma inv_attrs doc f : forall s l s', inv doc s -> suffix doc l \/ part doc l -> attributes f s l = Some s' -> inv doc s'.
Proof.
  assert (PT : forall g l, part doc l -> part doc (takeW g l)).
  { intros g l H. apply part_part with l; [exact H|]. apply part_takeW. exists []. reflexivity. }
  assert (PS : forall n l, part doc l -> part doc (skipn n l)).
  { intros n l H. apply part_part with l; [exact H|]. apply suffix_part. exists (firstn n l). now rewrite firstn_skipn. }
  assert (PD : forall g l, part doc l -> part doc (dropW g l)).
  { intros g l H. destruct (dropW_skipn g l) as (n & ->). auto. }
  assert (PC : forall c l, part doc (c :: l) -> part doc l) by (intros c l; apply (PS 1%nat (c :: l))).
  induction f as [|f IH]; intros s l s' I P E; [cbn in E; injection E as <-; exact I|].
  assert (P' : part doc l) by (destruct P; [now apply suffix_part|assumption]). clear P. cbn [attributes] in E.
  pose proof (PD isSpace l P') as P1. destruct (dropW isSpace l) as [|c1 l1'] eqn:E1; [injection E as <-; exact I|].
  cbn zeta in E. remember (c1 :: l1') as l1. clear Heql1 E1 c1 l1' P'.
  set (name := takeW (fun c => negb (c =? 61) && negb (isSpace c)) l1) in *. assert (PN : part doc name) by now apply PT.
  pose proof (PD (fun c => negb (c =? 61)) _ (PS (List.length name) _ P1)) as P2. destruct (dropW _ (skipn (List.length name) l1)) as [|c2 l2]; [injection E as <-; exact I|].
  apply PC in P2. pose proof (PD isSpace _ P2) as P3. destruct (dropW isSpace l2) as [|q l3]; [discriminate|]. apply PC in P3.
  destruct (negb ((q =? 39) || (q =? 34))); [discriminate|].
  set (v := takeW (fun c => negb (c =? q)) l3) in *. assert (PV : part doc v) by now apply PT.
  pose proof (PS (List.length v) _ P3) as P4. destruct (skipn (List.length v) l3) as [|c4 l4]; [discriminate|]. apply PC in P4.
  eapply IH; [|right; exact P4|exact E]. clear E IH. destruct (xstack s) as [|top st] eqn:ST; [exact I|]. destruct I as (A & B & C & D). rewrite ST in C.
  inversion C as [|x y C1 C2]; subst. unfold inv. cbn [xels xstack xprev]. rewrite onEl_length, app_length. cbn [List.length].
  assert (T : (top < List.length (xels s ++ [setHas true (newEl name XAttribute); newEl v XString]))%nat) by (rewrite app_length; lia).
  refine (conj _ (conj _ (conj _ _))).
  - apply names_onEl; auto. apply Forall_app. split; [exact A|]. repeat constructor; assumption.
  - apply keep_link; auto. change [setHas true (newEl name XAttribute); newEl v XString] with ([setHas true (newEl name XAttribute)] ++ [newEl v XString]). rewrite app_assoc.
    apply links_app; try reflexivity. apply links_app; try reflexivity. apply links_more with (List.length (xels s)); [lia|exact B].
  - apply (stack_more (List.length (xels s))); [lia|]. now rewrite ST in C || exact C.
  - lia.
Qed.

Lemma cdataEnd_parts l : forall a b, cdataEnd l = Some (a, b) -> (exists y, l = a ++ y) /\ suffix l b.
Proof.
  induction l as [|c l IH]; intros a b E; [discriminate|]. cbn [cdataEnd] in E. destruct (startsWith [93; 93; 62] (c :: l)).
  - injection E as <- <-. split; [now exists (c :: l)|]. apply (suffix_skipn (c :: l) (c :: l) 3). now exists [].
  - destruct (cdataEnd l) as [[a' b']|] eqn:X; [|discriminate]. injection E as <- <-. destruct (IH _ _ eq_refl) as ((y & ->) & (x & Y)).
    split; [now exists y|]. exists (c :: x). cbn. now f_equal.
Qed.

Lemma suffix_trans a b c : suffix a b -> suffix b c -> suffix a c.
Proof. intros (x & ->) (y & ->). exists (x ++ y). now rewrite app_assoc. Qed.

Lemma inv_tag doc s r s' rest : inv doc s -> suffix doc r -> tag s r = Some (s', rest) -> inv doc s' /\ suffix doc rest.
Proof.
  intros I P. unfold tag. destruct ((8 <? zlen r) && startsWith (txt "![CDATA[") r).
  - pose proof (suffix_skipn _ _ 8 P) as P8. destruct (cdataEnd (skipn 8 r)) as [[a b]|] eqn:E; [|discriminate]. intros X.
    apply cdataEnd_parts in E as ((y & Y) & E). assert (X1 := f_equal (fun o => match o with Some (u, _) => u | None => s end) X). assert (X2 := f_equal (fun o => match o with Some (_, u) => u | None => [] end) X).
    cbn in X1, X2. subst s' rest. split; [|eapply suffix_trans; eauto]. destruct I as (A & B & C & D). unfold inv. cbn [xels xstack xprev]. rewrite app_length. cbn [List.length].
    refine (conj _ (conj _ (conj _ _))).
    + apply Forall_app. split; [exact A|]. constructor; [|constructor]. cbn [newEl xname]. apply part_part with (skipn 8 r); [now apply suffix_part|]. exists [], y. exact Y.
    + apply links_app; try reflexivity. apply links_more with (List.length (xels s)); [lia|exact B].
    + apply (stack_more (List.length (xels s))); [lia|exact C].
    + lia.
  - cbn zeta. set (name := takeW (fun c => negb (c =? 62) && negb (isSpace c)) r). set (body := takeW (fun c => negb (c =? 62)) r).
    assert (PN : part doc name) by now apply part_takeW. assert (PB : part doc body) by now apply part_takeW.
    pose proof (suffix_skipn _ _ (List.length body) P) as PR. destruct (skipn (List.length body) r) as [|c rest']; [discriminate|]. apply suffix_cons in PR.
    assert (OUT : forall s0 t, inv doc s0 -> part doc t -> match attributes (S (List.length t)) s0 (skipn (List.length name) t) with None => None | Some s2 => Some (s2, rest') end = Some (s', rest) -> inv doc s' /\ suffix doc rest).
    { intros s0 t I0 PT. destruct (attributes (S (List.length t)) s0 (skipn (List.length name) t)) eqn:E; [|discriminate]. intros X.
      assert (X1 := f_equal (fun o => match o with Some (u, _) => u | None => s end) X). assert (X2 := f_equal (fun o => match o with Some (_, u) => u | None => [] end) X). cbn in X1, X2. subst s' rest.
      split; [|exact PR]. eapply inv_attrs; [exact I0| |exact E]. right. apply part_part with t; [exact PT|]. apply suffix_part. eexists. symmetry. apply firstn_skipn. }
    assert (PL : part doc (removelast body)) by (eapply part_part; [exact PB|apply removelast_part]).
    destruct (hd 62 body =? 47); [apply OUT; [now apply inv_close|exact PB]|]. destruct (lastOr 60 body =? 47); [now apply OUT|].
    destruct ((hd 62 body =? 63) && (lastOr 60 body =? 63)); [now apply OUT|].
    match goal with |- context[if ?b then _ else _] => destruct b end; [intros X; injection X as <- <-; auto|]. apply OUT; [now apply inv_open|exact PB].
Qed.

Lemma inv_loop doc f : forall s l s', inv doc s -> suffix doc l -> xloop f s l = Some s' -> inv doc s'.
Proof.
  induction f as [|f IH]; intros s l s' I P E; [discriminate|]. cbn [xloop] in E. destruct l as [|c l]; [injection E as <-; exact I|]. cbn zeta in E.
  remember (c :: l) as l0. clear Heql0. set (run := takeW (fun c => negb (c =? 60)) l0) in *.
  assert (I1 : inv doc (textRun s run)) by (apply inv_text; [exact I|now apply part_takeW]).
  pose proof (suffix_skipn _ _ (List.length run) P) as PR. destruct (skipn (List.length run) l0) as [|c1 r]; [injection E as <-; exact I1|]. apply suffix_cons in PR.
  destruct (tag (textRun s run) r) as [[s2 rest]|] eqn:T; [|discriminate]. apply (inv_tag doc) in T as (T1 & T2); [|exact I1|exact PR]. exact (IH _ _ _ T1 T2 E).
Qed.

Lemma parse_inv doc els : parseXml doc = Some els -> Forall (fun e => part doc (xname e)) els /\ links_to (List.length els) els /\ els <> [].
Proof.
  unfold parseXml. intros E. destruct (xloop _ _ doc) as [s|] eqn:L; [|discriminate]. eapply (inv_loop doc) in L.
  - destruct (xels s) eqn:X; [discriminate|]. destruct (xstack s); [|discriminate]. injection E as <-. destruct L as (A & B & _). rewrite X in *. split; [exact A|split; [exact B|discriminate]].
  - unfold inv. cbn. refine (conj (Forall_nil _) (conj _ (conj (Forall_nil _) (or_introl eq_refl)))). intros i Hi. cbn in Hi. lia.
  - now exists [].
Qed.

(** C73: every text the reader gives out is a part of the document. *)
Theorem C73_in_document : forall doc els e, parseXml doc = Some els -> In e els -> exists x y, doc = x ++ xname e ++ y.
Proof. intros doc els e E I. apply parse_inv in E as (A & _). rewrite Forall_forall in A. exact (A e I). Qed.
Print Assumptions C73_in_document.

(** C73: every link of any document leads forward to an element of it. *)
Theorem C73_links : forall doc els i j, parseXml doc = Some els -> (i < List.length els)%nat -> nextSibling els i = Some j \/ firstNode els i = Some j -> (i < j < List.length els)%nat.
Proof.
  intros doc els i j E L H. apply parse_inv in E as (_ & B & _). destruct (B i L) as ((B1 & B2) & B3 & B4). unfold nextSibling, firstNode in H. cbn zeta in H.
  destruct H as [H|H]; [destruct (Z.eqb_spec (xnext (atEl i els)) 0)|destruct (Z.eqb_spec (xchild (atEl i els)) 0)]; try discriminate; injection H as <-; [specialize (B2 n)|specialize (B4 n)]; lia.
Qed.
Print Assumptions C73_links.

Lemma findNamed_safe doc els name : parseXml doc = Some els -> forall f a, match a with None => True | Some i => (i < List.length els)%nat /\ (List.length els <= i + f)%nat end ->
  exists r, findNamed f els a name = Ok r /\ match r with None => True | Some i => (i < List.length els)%nat /\ xname (atEl i els) = name end.
Proof.
  intros E f. induction f as [|f IH]; intros [i|] H; try (exists None; split; [reflexivity|exact I]).
  - lia.
  - destruct H as [H1 H2]. cbn [findNamed]. destruct (Nat.ltb_spec i (List.length els)); [|lia]. destruct (list_eqb (xname (atEl i els)) name) eqn:N.
    + exists (Some i). split; [reflexivity|]. split; [exact H1|]. now apply list_eqb_spec.
    + apply IH. destruct (nextSibling els i) as [j|] eqn:NS; [|exact I]. pose proof (C73_links doc els i j E H1 (or_introl NS)). lia.
Qed.

(** C73: looking for a child by name in any document ends and stays inside it, and what it finds
    has that name. *)
Theorem C73_find : forall doc els i name, parseXml doc = Some els -> (i < List.length els)%nat ->
  exists r, firstNamed els i name = Ok r /\ match r with None => True | Some j => (j < List.length els)%nat /\ xname (nth j els noEl) = name end.
Proof.
  intros doc els i name E L. unfold firstNamed. eapply findNamed_safe; [exact E|]. destruct (firstNode els i) as [j|] eqn:F; [|exact I].
  pose proof (C73_links doc els i j E L (or_intror F)). lia.
Qed.
Print Assumptions C73_find.

(** Finding: the value of an element without content at the document's end is read behind the
    vector. *)
Theorem C73_value_refuted : exists doc els, parseXml doc = Some els /\ xvalue els 0 = UB.
Proof. exists (txt "<a></a>"). eexists. split; vm_compute; reflexivity. Qed.
Print Assumptions C73_value_refuted.

(** Finding: an element with an attribute has the attribute's value instead of its text. *)
Theorem C73_attribute_refuted : exists doc els, doc = txt "<a x='1'>text</a>" /\ parseXml doc = Some els /\ xvalue els 0 = Ok (txt "1").
Proof. eexists. eexists. split; [reflexivity|]. split; vm_compute; reflexivity. Qed.
Print Assumptions C73_attribute_refuted.

(** Finding: an element closed in its own tag is left out. *)
Theorem C73_self_closing_refuted : exists doc els, doc = txt "<a><b/></a>" /\ parseXml doc = Some els /\ firstNamed els 0 (txt "b") = Ok None.
Proof. eexists. eexists. split; [reflexivity|]. split; vm_compute; reflexivity. Qed.
Print Assumptions C73_self_closing_refuted.

Example ex_doc : exists els, parseXml (txt "<?xml version='1.0'?><r><a>1</a><b><c>x</c></b></r>") = Some els /\ firstNamed els 0 (txt "b") = Ok (Some 3%nat) /\
  xnumber els 1 = Ok 1 /\ xvalue els 4 = Ok (txt "x").
Proof. eexists. split; [vm_compute; reflexivity|]. vm_compute. auto. Qed.
