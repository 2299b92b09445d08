(** C100: the search for routers *)
From Verif Require Import Base BaseLemmas Dec DecLemmas XmlModel XmlProps DiscoveryModel DiscoverySpec DiscoveryProofs.
From Coq Require Import String Ascii.
From Coq Require Import List.
Import ListNotations.
Close Scope string_scope.

(** ** Addresses *)

(** A location written as it should be is read as it was written. *)
Theorem C100_location : forall proto addr port path, plain proto -> plain addr -> 0 <= port <= 65535 -> path = [] \/ (exists t, path = 47 :: t) ->
  parseUrl (proto ++ 58 :: 47 :: 47 :: addr ++ 58 :: toString port ++ path) = Some {| pProtocol := proto; pAddress := addr; pPort := Some port; pPath := path |}.
Proof.
  intros proto addr port path A B C D. destruct (begins_protocol proto (addr ++ 58 :: toString port ++ path) A) as (E & F & G). rewrite parse_rest, E. cbn [fst snd]. rewrite F.
  destruct (Nat.leb_spec (length proto + 3) (length (proto ++ 58 :: 47 :: 47 :: addr ++ 58 :: toString port ++ path))); [|lia]. now rewrite rest_full.
Qed.
Print Assumptions C100_location.

(** Any text: what is read are parts of it in order, the address has neither ':' nor '/', and only a ':' behind the protocol gives a port, of 16 bits. *)
Theorem C100_parts : forall s u, parseUrl s = Some u -> exists sep rest, s = pProtocol u ++ sep ++ pAddress u ++ rest /\ (length sep = 3%nat \/ (sep = [] /\ pProtocol u = [])) /\
  plain (pProtocol u) /\ plain (pAddress u) /\ (exists pre, rest = pre ++ pPath u) /\ (pPath u = [] \/ exists t, pPath u = 47 :: t) /\
  (rest = [] \/ exists t, rest = 58 :: t \/ rest = 47 :: t) /\ (pPort u = None <-> ~ In 58 rest) /\ (forall p, pPort u = Some p -> 0 <= p <= 65535).
Proof.
  intros s u E. rewrite parse_rest in E. destruct (Nat.leb_spec (fst (begins s)) (length s)) as [L|L]; [|discriminate]. injection E as <-.
  assert (B : exists sep, s = snd (begins s) ++ sep ++ skipn (fst (begins s)) s /\ (length sep = 3%nat \/ (sep = [] /\ snd (begins s) = [])) /\ plain (snd (begins s))).
  { unfold begins in *. destruct (firstOf ofProtocol s) as [e|] eqn:F; cbn [fst snd] in *; [|exists []; split; [reflexivity|]; split; [now right|split; intros []]].
    apply firstOf_some in F as (F1 & F2 & _). exists (firstn 3 (skipn e s)). split; [|split].
    - rewrite skipn_add, firstn_skipn. symmetry. apply firstn_skipn.
    - left. rewrite firstn_length, skipn_length. lia.
    - split; intros X; apply F2 in X; discriminate X. }
  destruct B as (sep & B1 & B2 & B3). set (r := skipn (fst (begins s)) s) in *. set (pr := snd (begins s)) in *. clearbody r pr. unfold parseRest. cbn [pProtocol pAddress pPort pPath].
  assert (N1 : firstOf (Z.eqb 58) r = None -> ~ In 58 r) by (intros H X; apply (firstOf_none' _ _ H) in X; discriminate X).
  assert (N2 : firstOf (Z.eqb 47) r = None -> ~ In 47 r) by (intros H X; apply (firstOf_none' _ _ H) in X; discriminate X).
  assert (PB : forall t, 0 <= portOf t <= 65535) by (intros t; unfold portOf; destruct (strtoull (t ++ [0])) as [(v, k)|]; [unfold u16; pose proof (Z.mod_pos_bound v 65536); lia|lia]).
  assert (FI : forall k x, In x (firstn k r) -> In x r) by (intros k x X; rewrite <- (firstn_skipn k r); apply in_or_app; now left).
  assert (MN : forall k i c t, (forall x, In x (firstn i r) -> (c =? x) = false) -> (k <= i)%nat -> In c (firstn k r) -> t = true -> False).
  { intros k i c t H K X _. assert (X2 : In c (firstn i r)) by (replace k with (Nat.min k i) in X by lia; rewrite <- firstn_firstn in X; rewrite <- (firstn_skipn k (firstn i r)); apply in_or_app; left; rewrite firstn_firstn; replace (Nat.min k i) with k by lia; rewrite firstn_firstn in X; now replace (Nat.min k i) with k in X by lia).
    apply H in X2. rewrite Z.eqb_refl in X2. discriminate. }
  destruct (firstOf (Z.eqb 58) r) as [i|] eqn:I, (firstOf (Z.eqb 47) r) as [j|] eqn:J.
  - apply firstOf_some in I as (I1 & I2 & ci & ti & I3 & I4). apply firstOf_some in J as (J1 & J2 & cj & tj & J3 & J4). apply Z.eqb_eq in I4, J4. subst ci cj.
    exists sep, (skipn (Nat.min i j) r). rewrite firstn_skipn. split; [exact B1|]. split; [exact B2|]. split; [exact B3|]. split; [split; intros X; [eapply (MN (Nat.min i j) i 58); eauto; lia|eapply (MN (Nat.min i j) j 47); eauto; lia]|].
    split; [exists (firstn (j - Nat.min i j) (skipn (Nat.min i j) r)); assert (EJ : skipn j r = skipn (j - Nat.min i j) (skipn (Nat.min i j) r)) by (rewrite <- skipn_add; f_equal; lia); rewrite EJ, firstn_skipn; reflexivity|]. split; [right; eauto|].
    split; [right; destruct (Nat.min_spec i j) as [(_ & ->)|(_ & ->)]; eauto|]. split; [|intros p X; injection X as <-; apply PB]. split; [discriminate|]. intros X. exfalso. apply X. replace r with (firstn i r ++ 58 :: ti) by (rewrite <- I3; apply firstn_skipn).
    rewrite skipn_app. apply in_or_app. right. rewrite firstn_length. replace (Nat.min i j - Nat.min i (length r))%nat with 0%nat by lia. now left.
  - apply firstOf_some in I as (I1 & I2 & ci & ti & I3 & I4). apply Z.eqb_eq in I4. subst ci. exists sep, (skipn i r). rewrite firstn_skipn. split; [exact B1|]. split; [exact B2|]. split; [exact B3|].
    split; [split; intros X; [apply I2 in X; discriminate X|apply N2; [reflexivity|eauto]]|]. split; [eexists; symmetry; apply app_nil_r|]. split; [now left|]. split; [right; eauto|]. split; [|intros p X; injection X as <-; apply PB].
    split; [discriminate|]. intros X. exfalso. apply X. rewrite I3. now left.
  - apply firstOf_some in J as (J1 & J2 & cj & tj & J3 & J4). apply Z.eqb_eq in J4. subst cj. exists sep, (skipn j r). rewrite firstn_skipn. split; [exact B1|]. split; [exact B2|]. split; [exact B3|].
    split; [split; intros X; [apply N1; [reflexivity|eauto]|apply J2 in X; discriminate X]|]. split; [exists []; reflexivity|]. split; [right; eauto|]. split; [right; eauto|]. split; [|discriminate].
    split; [|reflexivity]. intros _ X. apply N1; [reflexivity|]. rewrite <- (firstn_skipn j r). apply in_or_app. now right.
  - exists sep, []. rewrite app_nil_r. split; [exact B1|]. split; [exact B2|]. split; [exact B3|]. split; [split; auto|]. split; [exists []; reflexivity|]. split; [now left|]. split; [now left|]. split; [|discriminate]. split; [intros _ []|reflexivity].
Qed.
Print Assumptions C100_parts.

(** Finding: a text whose first ':' or '/' is among its last two characters throws an exception that nothing catches. Exactly those do. *)
Theorem C100_throws_refuted : forall s, parseUrl s = None <-> exists a c b, s = a ++ c :: b /\ (c = 58 \/ c = 47) /\ plain a /\ (length b <= 1)%nat.
Proof.
  intros s. rewrite parse_rest. unfold begins. split.
  - destruct (firstOf ofProtocol s) as [e|] eqn:F; cbn [fst snd]; [|cbn; discriminate]. apply firstOf_some in F as (F1 & F2 & c & t & F3 & F4). destruct (Nat.leb_spec (e + 3) (length s)) as [L|L]; [discriminate|]. intros _.
    exists (firstn e s), c, t. split; [rewrite <- F3; symmetry; apply firstn_skipn|]. split; [unfold ofProtocol in F4; apply orb_true_iff in F4; rewrite !Z.eqb_eq in F4; exact F4|]. split; [split; intros X; apply F2 in X; discriminate X|].
    assert (length (c :: t) = (length s - e)%nat) by (rewrite <- F3; apply skipn_length). cbn in H. lia.
  - intros (a & c & b & -> & C & P & B). destruct (plain_no a P) as (A & _). rewrite firstOf_app; [|exact A|destruct C as [-> | ->]; reflexivity]. cbn [fst snd]. rewrite app_length. cbn [length].
    destruct (Nat.leb_spec (length a + 3) (length a + S (length b))); [lia|reflexivity].
Qed.
Print Assumptions C100_throws_refuted.

(** Finding: without a port the member is read although it was never written. *)
Theorem C100_no_port_refuted : forall proto addr path, plain proto -> plain addr -> addr <> [] -> path = [] \/ (exists t, path = 47 :: t) -> ~ In 58 path -> forall g c s, dDead s = false -> dSearch s = true ->
  dLog (dstep s (DResponse g c [(txt "LOCATION"%string, proto ++ 58 :: 47 :: 47 :: addr ++ path)])) = dLog s ++ [XUnset].
Proof.
  intros proto addr path A B NE D N g c s DD DS. destruct (begins_protocol proto (addr ++ path) A) as (E & F & G).
  assert (P : parseUrl (proto ++ 58 :: 47 :: 47 :: addr ++ path) = Some {| pProtocol := proto; pAddress := addr; pPort := None; pPath := path |}).
  { rewrite parse_rest, E. cbn [fst snd]. rewrite F. destruct (Nat.leb_spec (length proto + 3) (length (proto ++ 58 :: 47 :: 47 :: addr ++ path))); [|lia]. f_equal. unfold parseRest. destruct (plain_no addr B) as (_ & A1 & A2).
    rewrite (firstOf_none (Z.eqb 58)) by (intros x X; apply in_app_or in X; destruct X as [X|X]; [auto|apply Z.eqb_neq; intros <-; contradiction]).
    destruct D as [->|(t & ->)]; [rewrite app_nil_r, (firstOf_none (Z.eqb 47)) by exact A2; reflexivity|]. rewrite (firstOf_app (Z.eqb 47)) by (auto; reflexivity). rewrite firstn_app, Nat.sub_diag, firstn_all, skipn_app, skipn_all, Nat.sub_diag. cbn. now rewrite app_nil_r. }
  unfold dstep, response. rewrite DD, DS. cbn [locations]. rewrite list_eqb_refl, P. cbn [pAddress pPort]. destruct addr; [contradiction|]. reflexivity.
Qed.
Print Assumptions C100_no_port_refuted.

(** Finding: a number behind a ':' of the path is taken for the port. *)
Theorem C100_path_port_refuted : exists u, parseUrl (txt "http://a/b:80"%string) = Some u /\ pAddress u = txt "a"%string /\ pPort u = Some 80 /\ pPath u = txt "/b:80"%string.
Proof. eexists. vm_compute. auto. Qed.
Print Assumptions C100_path_port_refuted.

(** ** The description *)

(** What is told of a device are parts of its description: the services have a type and an address, and no type is twice. *)
Theorem C100_services : forall doc els name m, parseXml doc = Some els -> parseDevices els = Ok (name, m) -> (exists x y, doc = x ++ name ++ y) /\ NoDup (map fst m) /\
  Forall (fun p => fst p <> [] /\ snd p <> [] /\ (exists x y, doc = x ++ fst p ++ y) /\ (exists x y, doc = x ++ snd p ++ y)) m.
Proof.
  intros doc els name m P E. unfold parseDevices in E. destruct (firstNamed els 0 _) as [n|]; cbn [bind] in E; [|discriminate].
  assert (K : forall t, inDoc els t -> exists x y, doc = x ++ t ++ y) by (intros t [->|(e & I & ->)]; [exists [], doc; reflexivity|now apply (C73_in_document doc els)]).
  destruct (deviceLoop_good els _ _ _ _ _ ltac:(split; constructor) ltac:(now left) E) as (A & B & C). cbn [fst snd] in *. split; [auto|]. split; [exact C|]. eapply Forall_impl; [|exact B]. intros p (X1 & X2 & X3 & X4). auto.
Qed.
Print Assumptions C100_services.

(** Reading ends for every description in which each text asked for has an element behind it, whatever is nested in it. Missing: [C100_empty_refuted]. *)
Theorem C100_description_partial : forall doc els, parseXml doc = Some els -> readable els -> exists r, parseDevices els = Ok r.
Proof. intros doc els P R. now apply (parseDevices_ends doc). Qed.
Print Assumptions C100_description_partial.

(** Finding: a description whose last element is an empty name is read behind its elements. *)
Theorem C100_empty_refuted : exists doc els, doc = txt "<root><device><friendlyName></friendlyName></device></root>"%string /\ parseXml doc = Some els /\ parseDevices els = UB.
Proof. eexists. eexists. split; [reflexivity|]. split; vm_compute; reflexivity. Qed.
Print Assumptions C100_empty_refuted.

(** ** What is asked, and when *)
Lemma queried_app a b : queried (a ++ b) = queried a ++ queried b.
Proof. induction a as [|[]]; cbn; congruence. Qed.

(** What [queryNext] keeps *)
Record Next (s s' : disco) : Prop := {
  x_len : (length (queried (dLog s')) + length (dQueue s') = length (queried (dLog s)) + length (dQueue s))%nat;
  x_in : forall l, In l (dQueue s' ++ queried (dLog s')) <-> In l (dQueue s ++ queried (dLog s));
  x_open : open s' = [] -> dQueue s' = [];
  x_streams : map fst (dStreams s) = queried (dLog s) -> map fst (dStreams s') = queried (dLog s');
  x_dead : dDead s' = dDead s; x_search : dSearch s' = dSearch s }.

Lemma queryNext_ok s : Next s (queryNext s).
Proof.
  unfold queryNext. destruct (rev (dQueue s)) as [|l q] eqn:E.
  - assert (Q : dQueue s = []) by (rewrite <- (rev_involutive (dQueue s)), E; reflexivity). split; auto; tauto.
  - assert (Q : dQueue s = rev q ++ [l]) by (rewrite <- (rev_involutive (dQueue s)), E; reflexivity). split; cbn [dLog dQueue dStreams dDead dSearch]; rewrite ?queried_app; cbn [queried].
    + rewrite Q, !app_length. cbn. lia.
    + intros x. rewrite Q, !in_app_iff. cbn. tauto.
    + unfold open. cbn [dStreams]. rewrite filter_app. cbn. intros X. apply app_eq_nil in X. destruct X; discriminate.
    + intros H. rewrite map_app, H. reflexivity.
    + reflexivity.
    + reflexivity.
Qed.

(** What the parameters of a response do *)
Record Took (g c : list Z) (ps : list (list Z * list Z)) (s s' : disco) (new : list location) (tail : list effect) : Prop := {
  k_queue : dQueue s' = dQueue s ++ new; k_log : dLog s' = dLog s ++ tail; k_streams : dStreams s' = dStreams s; k_search : dSearch s' = dSearch s; k_cb : dCb s' = dCb s;
  k_tail : queried tail = [] /\ (forall l n m, ~ In (XDevice l n m) tail);
  k_given : forall l, In l new -> gives g c ps l;
  k_len : (length new <= length (filter (fun p => list_eqb (fst p) (txt "LOCATION"%string)) ps))%nat;
  k_all : dDead s' = false -> tail = [] /\ forall l, gives g c ps l -> In l new }.

Lemma gives_more g c p ps l : gives g c ps l -> gives g c (p :: ps) l.
Proof. intros (v & u & I & H). exists v, u. split; [now right|exact H]. Qed.

Lemma locations_ok g c ps : forall s, dDead s = false -> exists new tail, Took g c ps s (locations g c ps s) new tail.
Proof.
  induction ps as [|(k, v) ps IH]; intros s D; cbn [locations].
  - exists [], []. split; rewrite ?app_nil_r; auto.
    + intros l [].
    + intros _. split; [reflexivity|]. intros l (v & u & [] & _).
  - destruct (list_eqb k (txt "LOCATION"%string)) eqn:K.
    + apply list_eqb_spec in K. subst k.
      assert (SKIP : (forall l, gives g c ((txt "LOCATION"%string, v) :: ps) l -> gives g c ps l) -> exists new tail, Took g c ((txt "LOCATION"%string, v) :: ps) s (locations g c ps s) new tail).
      { intros G. destruct (IH s D) as (new & tail & T). exists new, tail. destruct T. split; auto.
        - intros l L. now apply gives_more, k_given0.
        - cbn [filter fst]. rewrite list_eqb_refl. cbn [length]. lia.
        - intros X. destruct (k_all0 X) as (A & B). split; auto. }
      assert (DIE : forall e, queried [e] = [] -> (forall l n m, e <> XDevice l n m) -> exists new tail, Took g c ((txt "LOCATION"%string, v) :: ps) s (dies e s) new tail).
      { intros e Q N. exists [], [e]. split; rewrite ?app_nil_r; try reflexivity; [split; [exact Q|]; intros l n m [X|[]]; now apply (N l n m)|intros l []|cbn [length]; lia|intros X; discriminate X]. }
      destruct (parseUrl v) as [u|] eqn:U; [|apply DIE; [reflexivity|discriminate]].
      assert (HEAD : forall l, gives g c ((txt "LOCATION"%string, v) :: ps) l -> gives g c ps l \/ (lGateway l = g /\ lClient l = c /\ pAddress u = g /\ g <> [] /\ pPort u = Some (lPort l) /\ lPort l <> 0 /\ lPath l = pPath u)).
      { intros l (v' & u' & [X|X] & R); [right; injection X as <-; destruct R as (R1 & R); rewrite U in R1; injection R1 as <-; exact R|left; exists v', u'; auto]. }
      destruct (pAddress u) as [|a0 ad] eqn:PA; [apply SKIP; intros l G; destruct (HEAD l G) as [H|(_ & _ & A1 & A2 & _)]; [exact H|congruence]|]. destruct (pPort u) as [p|] eqn:PP; [|apply DIE; [reflexivity|discriminate]].
      destruct (negb (p =? 0) && list_eqb g (a0 :: ad)) eqn:OK.
      * apply andb_true_iff in OK as (O1 & O2). apply negb_true_iff, Z.eqb_neq in O1. apply list_eqb_spec in O2. set (l0 := {| lGateway := g; lClient := c; lPort := p; lPath := pPath u |}).
        destruct (IH (enqueue l0 s) D) as (new & tail & T). exists (l0 :: new), tail. destruct T. cbn [enqueue dQueue dLog dStreams dSearch dCb] in *. split; auto.
        -- rewrite k_queue0, <- app_assoc. reflexivity.
        -- intros l [<-|L]; [|now apply gives_more, k_given0]. exists v, u. split; [now left|]. split; [exact U|]. rewrite PA, PP, O2. cbn. repeat split; auto. discriminate.
        -- cbn [filter fst]. rewrite list_eqb_refl. cbn [length]. lia.
        -- intros X. destruct (k_all0 X) as (A & B). split; [exact A|]. intros l G. destruct (HEAD l G) as [H|(A1 & A2 & _ & _ & A3 & _ & A4)]; [right; auto|left]. destruct l; unfold l0; cbn in *. congruence.
      * apply SKIP. intros l G. destruct (HEAD l G) as [H|(_ & _ & A1 & _ & A3 & A4 & _)]; [exact H|exfalso]. injection A3 as A3. rewrite <- A3 in A4. rewrite A1, list_eqb_refl in OK. apply Z.eqb_neq in A4. rewrite A4 in OK. discriminate.
    + destruct (IH s D) as (new & tail & T). exists new, tail. destruct T. split; auto.
      * intros l L. now apply gives_more, k_given0.
      * cbn [filter fst]. rewrite K. exact k_len0.
      * intros X. destruct (k_all0 X) as (A & B). split; [exact A|]. intros l (v' & u' & [Y|Y] & R); [injection Y as -> ->; rewrite list_eqb_refl in K; discriminate|]. apply B. exists v', u'. auto.
Qed.

Lemma quiet_fst i l : map fst (quiet i l) = map fst l.
Proof.
  unfold quiet. destruct (nth_error l i) as [(a, b)|] eqn:E; [|reflexivity]. revert i E. induction l as [|x l IH]; intros [|i] E; cbn in *; try discriminate; [injection E as ->; reflexivity|]. f_equal. auto.
Qed.

Lemma quiet_open i l : incl (filter snd (quiet i l)) (filter snd l).
Proof.
  unfold quiet. destruct (nth_error l i) as [(a, b)|] eqn:E; [|apply incl_refl]. revert i E. induction l as [|x l IH]; intros [|i] E; cbn in *; try discriminate.
  - destruct (snd x); [apply incl_tl|]; apply incl_refl.
  - destruct (snd x); [|now apply IH]. intros y [<-|Y]; [now left|right]. now apply (IH i E).
Qed.

Record Inv (es : list devent) (s : disco) : Prop := {
  i_idle : open s = [] -> dDead s = false -> dQueue s = [];
  i_len : (length (queried (dLog s)) + length (dQueue s) <= offers es)%nat;
  i_given : forall l, In l (dQueue s ++ queried (dLog s)) -> given es l;
  i_streams : map fst (dStreams s) = queried (dLog s);
  i_device : forall l n m, In (XDevice l n m) (dLog s) -> In l (queried (dLog s)) }.

Lemma offers_app a b : offers (a ++ b) = (offers a + offers b)%nat.
Proof. induction a as [|[] a IH]; cbn; lia. Qed.

Lemma given_app es e l : given es l -> given (es ++ [e]) l.
Proof. intros (g & c & p & I & H). exists g, c, p. split; [apply in_or_app; now left|exact H]. Qed.

Lemma nth_open l i x : nth_error l i = Some (x, true) -> filter snd l <> @nil (location * bool).
Proof. intros E F. apply nth_error_In in E. assert (In (x, true) (filter snd l)) by (apply filter_In; auto). rewrite F in H. contradiction. Qed.

Lemma In_next_dev s l n m : In (XDevice l n m) (dLog (queryNext s)) -> In (XDevice l n m) (dLog s).
Proof. unfold queryNext. destruct (rev (dQueue s)); [auto|]. cbn [dLog]. intros X. apply in_app_or in X. destruct X as [X|[X|[]]]; [exact X|discriminate]. Qed.

Lemma In_next_q s l : In l (queried (dLog s)) -> In l (queried (dLog (queryNext s))).
Proof. unfold queryNext. destruct (rev (dQueue s)); [auto|]. cbn [dLog]. rewrite queried_app. intros X. apply in_or_app. now left. Qed.

Lemma Inv_step es s e : Inv es s -> Inv (es ++ [e]) (dstep s e).
Proof.
  intros [A B C D F].
  assert (KEEP : Inv (es ++ [e]) s) by (split; auto; [rewrite offers_app; lia|intros l L; now apply given_app, C]).
  unfold dstep. destruct (dDead s) eqn:DD; [exact KEEP|]. destruct e as [| |g c ps|i b|i].
  - unfold start. destruct (dSearch s); [exact KEEP|]. now destruct KEEP.
  - unfold stop. destruct KEEP as [A' B' C' D' F']. split; cbn [dQueue dLog dStreams dDead]; auto.
    + cbn [length]. lia.
    + intros l L. apply C'. apply in_or_app. now right.
    + destruct (dCur s); [rewrite quiet_fst|]; exact D'.
  - destruct (dSearch s) eqn:DS; [|exact KEEP]. unfold response. destruct (locations_ok g c ps s DD) as (new & tail & [T1 T2 T3 T4 T5 (T6 & T6') T7 T8 T9]). set (s1 := locations g c ps s) in *.
    assert (Q1 : queried (dLog s1) = queried (dLog s)) by (rewrite T2, queried_app, T6; apply app_nil_r).
    assert (G1 : forall l, In l (dQueue s1 ++ queried (dLog s1)) -> given (es ++ [DResponse g c ps]) l).
    { intros l. rewrite Q1, T1, <- app_assoc, in_app_iff, in_app_iff. intros [L|[L|L]]; [apply given_app, C, in_or_app; now left| |apply given_app, C, in_or_app; now right]. exists g, c, ps. split; [apply in_or_app; right; now left|auto]. }
    assert (D1 : forall l n m, In (XDevice l n m) (dLog s1) -> In l (queried (dLog s1))).
    { intros l n m L. rewrite Q1. rewrite T2 in L. apply in_app_or in L. destruct L as [L|L]; [eapply F; exact L|exfalso; eapply T6'; exact L]. }
    assert (L1 : (length (queried (dLog s1)) + length (dQueue s1) <= offers (es ++ [DResponse g c ps]))%nat) by (rewrite Q1, T1, app_length, offers_app; cbn [offers]; lia).
    destruct (dDead s1) eqn:D2; [split; auto; [intros _ X; congruence|rewrite T3, Q1; exact D]|]. destruct (queryNext_ok s1) as [X1 X2 X3 X4 X5 X6]. split.
    + intros O _. now apply X3.
    + rewrite X1. exact L1.
    + intros l L. apply X2 in L. auto.
    + apply X4. rewrite T3, Q1. exact D.
    + intros l n m L. apply In_next_dev in L. apply In_next_q. eapply D1. exact L.
  - unfold answer. destruct (nth_error (dStreams s) i) as [(l0, [|])|] eqn:N; try exact KEEP. destruct (parseXml b) as [els|]; [|exact KEEP]. destruct KEEP as [A' B' C' D' F'].
    destruct (parseDevices els) as [(nm, m0)|]; [destruct (dCb s)|]; (split; cbn [dies dQueue dLog dStreams dDead]; rewrite ?queried_app; cbn [queried]; rewrite ?app_nil_r; auto; [try (intros _ X; discriminate X)|..]).
    + intros l n m L. apply in_app_or in L. destruct L as [L|[L|[]]]; [eapply F; exact L|]. injection L as <- <- <-. rewrite <- D. apply nth_error_In in N. apply (in_map fst) in N. exact N.
    + intros l n m L. apply in_app_or in L. destruct L as [L|[L|[]]]; [eapply F; exact L|discriminate].
    + intros l n m L. apply in_app_or in L. destruct L as [L|[L|[]]]; [eapply F; exact L|discriminate].
  - unfold closedStream. destruct (nth_error (dStreams s) i) as [(l0, [|])|] eqn:N; try exact KEEP. destruct KEEP as [A' B' C' D' F'].
    set (s1 := {| dSearch := dSearch s; dCb := dCb s; dQueue := dQueue s; dStreams := quiet i (dStreams s); dCur := dCur s; dDead := dDead s; dLog := dLog s |}).
    destruct (queryNext_ok s1) as [X1 X2 X3 X4 X5 X6]. split.
    + intros O _. now apply X3.
    + rewrite X1. exact B'.
    + intros l L. apply X2 in L. apply C'. exact L.
    + apply X4. cbn. rewrite quiet_fst. exact D.
    + intros l n m L. apply In_next_dev in L. apply In_next_q. eapply F. exact L.
Qed.

Lemma Inv_run es : Inv es (drun es newDisco).
Proof.
  induction es as [|e es IH] using rev_ind; [split; cbn; auto; intros l []|]. unfold drun. rewrite fold_left_app. cbn [fold_left]. now apply Inv_step.
Qed.

(** Only locations that a response gave are asked: at the adapter's own gateway, with a port, and not more often than there were locations. *)
Theorem C100_asked_only : forall es, let s := drun es newDisco in (forall l, In l (queried (dLog s)) -> given es l) /\ (length (queried (dLog s)) <= offers es)%nat.
Proof.
  intros es s. destruct (Inv_run es) as [_ B C _ _]. split; [intros l L; apply C, in_or_app; now right|]. fold s in B. lia.
Qed.
Print Assumptions C100_asked_only.

(** A device told was asked before, and is told with the gateway, address and port it was asked with. *)
Theorem C100_told : forall es l name m, In (XDevice l name m) (dLog (drun es newDisco)) -> In l (queried (dLog (drun es newDisco))) /\ given es l.
Proof.
  intros es l name m I. destruct (Inv_run es) as [_ B C _ F]. pose proof (F l name m I) as Q. split; [exact Q|]. apply C, in_or_app. now right.
Qed.
Print Assumptions C100_told.

Lemma kept_step s e l : no_stop e -> dDead (dstep s e) = false -> In l (dQueue s ++ queried (dLog s)) -> In l (dQueue (dstep s e) ++ queried (dLog (dstep s e))).
Proof.
  intros N. unfold dstep. destruct (dDead s) eqn:DD; [auto|]. destruct e as [| |g c ps|i b|i]; [|now destruct N| | |].
  - unfold start. destruct (dSearch s); auto.
  - destruct (dSearch s); [|auto]. unfold response. destruct (locations_ok g c ps s DD) as (new & tail & [T1 T2 T3 T4 T5 (T6 & _) T7 T8 T9]). set (s1 := locations g c ps s) in *. destruct (dDead s1) eqn:DS1; [intros X; congruence|]. intros _ L.
    apply (x_in _ _ (queryNext_ok s1)). rewrite T1, T2, queried_app, T6, app_nil_r, <- app_assoc. apply in_app_or in L. apply in_or_app. destruct L; [now left|right; apply in_or_app; now right].
  - unfold answer. destruct (nth_error _ i) as [(l0, [|])|]; auto. destruct (parseXml b); auto. destruct (parseDevices l1) as [(nm, m)|]; [|intros X; discriminate X]. destruct (dCb s); [|intros X; discriminate X]. intros _ L. cbn [dQueue dLog]. rewrite queried_app. cbn [queried]. rewrite app_nil_r. exact L.
  - unfold closedStream. destruct (nth_error _ i) as [(l0, [|])|]; auto. intros _ L. apply (x_in _ _ (queryNext_ok _)). exact L.
Qed.

Lemma dead_stays es : forall s, dDead s = true -> drun es s = s.
Proof. induction es as [|e es IH]; intros s D; [reflexivity|]. cbn. assert (E : dstep s e = s) by (unfold dstep; now rewrite D). unfold drun in *. cbn. rewrite E. now apply IH. Qed.

Lemma kept_run es : forall s l, Forall no_stop es -> dDead (drun es s) = false -> In l (dQueue s ++ queried (dLog s)) -> In l (dQueue (drun es s) ++ queried (dLog (drun es s))).
Proof.
  induction es as [|e es IH]; intros s l N D L; [exact L|]. inversion N; subst. change (drun (e :: es) s) with (drun es (dstep s e)) in *. apply IH; auto. apply kept_step; auto.
  destruct (dDead (dstep s e)) eqn:X; [|reflexivity]. rewrite dead_stays in D by exact X. congruence.
Qed.

(** Every location of a response is asked, unless the search is stopped: when no stream is open any more, all were. Missing: an exception ends the program ([C100_throws_refuted], [C100_no_port_refuted], [C100_empty_refuted]). *)
Theorem C100_all_asked_partial : forall es1 g c ps es2 l, let s := drun (es1 ++ DResponse g c ps :: es2) newDisco in
  dSearch (drun es1 newDisco) = true -> Forall no_stop es2 -> dDead s = false -> open s = [] -> gives g c ps l -> In l (queried (dLog s)).
Proof.
  intros es1 g c ps es2 l s SE N D O G. pose proof (i_idle _ _ (Inv_run (es1 ++ DResponse g c ps :: es2)) O D) as Q. fold s in Q.
  enough (X : In l (dQueue s ++ queried (dLog s))) by now rewrite Q in X. unfold s in *. unfold drun in D |- *. rewrite fold_left_app in *. cbn [fold_left] in *. fold (drun es1 newDisco) in *. set (s1 := drun es1 newDisco) in *.
  apply (kept_run es2); [exact N|exact D|]. fold (drun es2 (dstep s1 (DResponse g c ps))) in D.
  assert (D0 : dDead (dstep s1 (DResponse g c ps)) = false) by (destruct (dDead (dstep s1 (DResponse g c ps))) eqn:Y; [rewrite dead_stays in D by exact Y; congruence|reflexivity]).
  assert (D1 : dDead s1 = false) by (destruct (dDead s1) eqn:Y; [unfold dstep in D0; rewrite Y in D0; congruence|reflexivity]).
  unfold dstep in *. rewrite D1, SE in *. unfold response in *. destruct (locations_ok g c ps s1 D1) as (new & tail & T). destruct (dDead (locations g c ps s1)) eqn:Z1; [congruence|].
  apply (x_in _ _ (queryNext_ok _)). destruct (k_all _ _ _ _ _ _ _ T Z1) as (_ & K). rewrite (k_queue _ _ _ _ _ _ _ T). apply in_or_app. left. apply in_or_app. right. now apply K.
Qed.
Print Assumptions C100_all_asked_partial.

(** After a stop that left no stream open nothing is asked or told, and nothing ends the program, until the next start. Missing: [C100_stop_refuted]. *)
Theorem C100_stop_partial : forall s es, dDead s = false -> open (dstep s DStop) = [] -> Forall quiet_event es ->
  let s' := drun es (dstep s DStop) in dLog s' = dLog s /\ dDead s' = false.
Proof.
  intros s es D O Q.
  assert (K : forall es s, Forall quiet_event es -> dDead s = false -> open s = [] -> dQueue s = [] -> dSearch s = false -> dLog (drun es s) = dLog s /\ dDead (drun es s) = false).
  { clear. induction es as [|e es IH]; intros s Q D O E S; [auto|]. inversion Q; subst. change (drun (e :: es) s) with (drun es (dstep s e)).
    assert (NO : forall i l, nth_error (dStreams s) i = Some (l, true) -> False) by (intros i l X; apply nth_open in X; contradiction).
    assert (ST : dstep s e = s \/ e = DStop).
    { unfold dstep. rewrite D. destruct e as [| |g c ps|i b|i]; [now destruct H1|now right|left; now rewrite S| |]; left; [unfold answer|unfold closedStream]; destruct (nth_error (dStreams s) i) as [(l0, [|])|] eqn:X; try reflexivity; now destruct (NO i l0). }
    destruct ST as [-> | ->]; [now apply IH|]. unfold dstep. rewrite D. destruct (IH (stop s)) as (A & B); auto.
    unfold open, stop. cbn [dStreams]. destruct (dCur s) as [i|]; [|exact O]. apply incl_l_nil. unfold open in O. rewrite <- O. apply quiet_open. }
  cbv zeta. unfold dstep in *. rewrite D in *. destruct (K es (stop s)) as (A & B); auto.
Qed.
Print Assumptions C100_stop_partial.

(** Two responses, two streams *)
Definition exLocation (port : Z) : list (list Z * list Z) := [(txt "ST"%string, txt "x"%string); (txt "LOCATION"%string, txt "http://10.0.0.1:"%string ++ toString port ++ txt "/d.xml"%string)].
Definition exBody : list Z := txt "<root><device><friendlyName>R</friendlyName><serviceList><service><serviceType>T</serviceType><controlURL>/c</controlURL></service></serviceList><deviceList><device><serviceList><service><serviceType>U</serviceType><controlURL>/u</controlURL></service></serviceList></device></deviceList></device></root>"%string.
Definition twoStreams : list devent := [DStart; DResponse (txt "10.0.0.1"%string) [] (exLocation 80); DResponse (txt "10.0.0.1"%string) [] (exLocation 81)].

(** Finding: stopping closes only the last stream. An answer on an older one calls the function that was taken away, which throws. *)
Theorem C100_stop_refuted : let s := drun (twoStreams ++ [DStop]) newDisco in dDead s = false /\ length (open s) = 1%nat /\ dLog (dstep s (DAnswer 0 exBody)) = dLog s ++ [XNull] /\ dDead (dstep s (DAnswer 0 exBody)) = true.
Proof. vm_compute. auto. Qed.
Print Assumptions C100_stop_refuted.

Definition exFound : location := {| lGateway := txt "10.0.0.1"%string; lClient := []; lPort := 80; lPath := txt "/d.xml"%string |}.
Example C100_meets : let s := drun (twoStreams ++ [DAnswer 0 exBody; DClosed 0; DClosed 1]) newDisco in
  dDead s = false /\ open s = [] /\ length (queried (dLog s)) = 2%nat /\ offers twoStreams = 2%nat /\
  In (XDevice exFound (txt "R"%string) [(txt "T"%string, txt "/c"%string); (txt "U"%string, txt "/u"%string)]) (dLog s) /\ dSearch (drun [DStart] newDisco) = true.
Proof. vm_compute. repeat split; auto. Qed.

Example C100_gives : gives (txt "10.0.0.1"%string) [] (exLocation 80) exFound.
Proof. exists (txt "http://10.0.0.1:80/d.xml"%string). eexists. split; [right; now left|]. split; [vm_compute; reflexivity|]. cbn [pAddress pPort pPath]. repeat split; discriminate. Qed.

Example C100_readable : exists els, parseXml exBody = Some els /\ readable els /\ parseDevices els = Ok (txt "R"%string, [(txt "T"%string, txt "/c"%string); (txt "U"%string, txt "/u"%string)]).
Proof.
  eexists. split; [vm_compute; reflexivity|]. split; [|vm_compute; reflexivity]. intros i L T. cbn [List.length] in L.
  do 18 (destruct i as [|i]; [first [eexists; vm_compute; reflexivity|exfalso; vm_compute in T; intuition discriminate|exfalso; clear - L; lia]|]). exfalso. clear - L. lia.
Qed.
