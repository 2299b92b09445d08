From Verif Require Import Base BaseLemmas ListenerModel ListenerSpec.
From Coq Require Import Lia List.
Import ListNotations.

Lemma same_eq : forall a b, same a b = true <-> a = b.
Proof.
  induction a as [|x a I]; intros [|y b]; cbn [same]; split; intros E; try discriminate; try reflexivity.
  - apply andb_true_iff in E as (E1 & E2). apply Z.eqb_eq in E1. apply I in E2. now subst.
  - injection E as -> ->. rewrite Z.eqb_refl. cbn [andb]. now apply I.
Qed.

Lemma name_length : length (19 :: protocolName) = 20%nat. Proof. reflexivity. Qed.

Lemma greets_starts : forall data hash, greets data hash -> startsAsHandshake data = true /\ (68 <= length data)%nat /\ handshakeInfo data = Ok hash.
Proof.
  intros data hash (r & p & t & -> & R & Hh & P). pose proof name_length as N. remember (19 :: protocolName) as n eqn:En.
  assert (L : (68 <= length (n ++ r ++ hash ++ p ++ t))%nat) by (rewrite !app_length; lia).
  split; [|split; [exact L|]].
  - unfold startsAsHandshake. apply andb_true_iff. split; [apply Nat.leb_le; lia|]. apply same_eq. rewrite firstn_app, N, Nat.sub_diag, firstn_O, app_nil_r, <- N, firstn_all. exact En.
  - unfold handshakeInfo. destruct (Nat.ltb_spec (length (n ++ r ++ hash ++ p ++ t)) 68); [lia|]. f_equal.
    rewrite app_assoc, skipn_app. rewrite (skipn_all2 (n ++ r)) by (rewrite app_length; lia). rewrite app_length, N, R. cbn [Nat.add Nat.sub app skipn].
    rewrite firstn_app, Hh, Nat.sub_diag, firstn_O, app_nil_r, <- Hh. apply firstn_all.
Qed.

Lemma starts_greets : forall data, startsAsHandshake data = true -> (68 <= length data)%nat -> greets data (firstn 20 (skipn 28 data)).
Proof.
  intros data S0 L. unfold startsAsHandshake in S0. apply andb_true_iff in S0 as (_ & S0). apply same_eq in S0.
  exists (firstn 8 (skipn 20 data)), (firstn 20 (skipn 48 data)), (skipn 68 data). rewrite <- S0. split; [|rewrite !firstn_length, !skipn_length; lia].
  assert (J : forall a b (l : list Z), firstn a (skipn b l) ++ skipn (b + a) l = skipn b l).
  { intros a b l. rewrite <- (firstn_skipn a (skipn b l)) at 2. f_equal. clear. revert l. induction b as [|b I]; intros l; [reflexivity|]. destruct l as [|x l]; [destruct a; reflexivity|]. exact (I l). }
  pose proof (J 20%nat 48%nat data) as J1. pose proof (J 20%nat 28%nat data) as J2. pose proof (J 8%nat 20%nat data) as J3. cbn [Nat.add] in J1, J2, J3. rewrite J1, J2, J3. symmetry. apply firstn_skipn.
Qed.

Section L0.
Variable H : Type.
Notation listener := (ListenerModel.listener H).
Notation find := (ListenerModel.find H).
Notation erase := (ListenerModel.erase H).
Notation keep := (ListenerModel.keep H).
Notation lPending := (ListenerModel.lPending H).
Notation lStreams := (ListenerModel.lStreams H).
Notation lOut := (ListenerModel.lOut H).
Notation lNext := (ListenerModel.lNext H).

Lemma find_erase : forall id j l, find j (erase id l) = if (id =? j)%nat then None else find j l.
Proof.
  intros id j. induction l as [|(i, h) l I]; [now destruct (id =? j)%nat|]. cbn [ListenerModel.erase filter fst ListenerModel.find].
  destruct (Nat.eqb_spec i id) as [->|N]; cbn [negb]; [rewrite (I : find j (filter _ l) = _); now destruct (Nat.eqb_spec id j)|].
  cbn [ListenerModel.find]. rewrite (I : find j (filter _ l) = _). destruct (Nat.eqb_spec i j) as [->|], (Nat.eqb_spec id j) as [E|]; congruence.
Qed.

Lemma find_keep : forall id h j l, find j (keep id h l) = if (id =? j)%nat then match find j l with Some _ => Some (Some h) | None => None end else find j l.
Proof.
  intros id h j. induction l as [|(i, g) l I]; [now destruct (id =? j)%nat|]. cbn [ListenerModel.keep map fst]. 
  destruct (Nat.eqb_spec i id) as [->|N]; cbn [ListenerModel.find]; rewrite (I : find j (map _ l) = _);
  destruct (Nat.eqb_spec id j) as [->|]; try (rewrite Nat.eqb_refl; reflexivity); try reflexivity; destruct (Nat.eqb_spec i j); congruence.
Qed.

Lemma calls_give : forall id w j l, calls j (give id w l) = if (id =? j)%nat then match calls j l with Some _ => Some w | None => None end else calls j l.
Proof.
  intros id w j. induction l as [|(i, g) l I]; [now destruct (id =? j)%nat|]. cbn [give map fst]. 
  destruct (Nat.eqb_spec i id) as [->|N]; cbn [calls]; rewrite (I : calls j (map _ l) = _);
  destruct (Nat.eqb_spec id j) as [->|]; try (rewrite Nat.eqb_refl; reflexivity); try reflexivity; destruct (Nat.eqb_spec i j); congruence.
Qed.

Lemma calls_filter : forall id j l, calls j (filter (fun p : nat * who => negb (fst p =? id)%nat) l) = if (id =? j)%nat then None else calls j l.
Proof.
  intros id j. induction l as [|(i, h) l I]; [now destruct (id =? j)%nat|]. cbn [filter fst calls].
  destruct (Nat.eqb_spec i id) as [->|N]; cbn [negb]; [rewrite I; now destruct (Nat.eqb_spec id j)|].
  cbn [calls]. rewrite I. destruct (Nat.eqb_spec i j) as [->|], (Nat.eqb_spec id j) as [E|]; congruence.
Qed.

Lemma find_in : forall j l, find j l <> None <-> In j (map fst l).
Proof.
  intros j. induction l as [|(i, h) l I]; cbn [ListenerModel.find map fst In]; [now split|]. destruct (Nat.eqb_spec i j) as [->|N]; [split; [now left|discriminate]|].
  rewrite I. split; [now right|]. intros [X|X]; [congruence|exact X].
Qed.

Lemma calls_nobody : forall ids j l, calls j (map (fun p : nat * who => if existsb (Nat.eqb (fst p)) ids then (fst p, ByNobody) else p) l) =
  match calls j l with Some w => Some (if existsb (Nat.eqb j) ids then ByNobody else w) | None => None end.
Proof.
  intros ids j. induction l as [|(i, w) l I]; [reflexivity|]. cbn [map fst]. destruct (existsb (Nat.eqb i) ids) eqn:E; cbn [calls]; destruct (Nat.eqb_spec i j) as [->|]; try exact I; now rewrite E.
Qed.

Lemma times_app : forall id a b, timesHanded id (a ++ b) = (timesHanded id a + timesHanded id b)%nat.
Proof. intros. unfold timesHanded. now rewrite filter_app, app_length. Qed.

Lemma times_close : forall id l, timesHanded id (map OClose l) = 0%nat.
Proof. intros id. induction l as [|x l I]; [reflexivity|exact I]. Qed.

(** Everything the streams and the pending peers say of one another *)
Definition Inv (s : listener) : Prop :=
  (forall id, find id (lPending s) <> None -> calls id (lStreams s) = Some ByListener /\ timesHanded id (lOut s) = 0%nat) /\
  (forall id, (timesHanded id (lOut s) <= 1)%nat) /\
  (forall id, calls id (lStreams s) = Some ByListener -> find id (lPending s) <> None \/ timesHanded id (lOut s) = 1%nat) /\
  (forall id, (lNext s <= id)%nat -> calls id (lStreams s) = None /\ timesHanded id (lOut s) = 0%nat).

Lemma Inv_new : Inv (newListener H).
Proof. unfold Inv. cbn. split; [|split; [|split]]; intros id; try congruence; try lia. now split. Qed.

Lemma Inv_emit : forall o s, (forall id, timesHanded id o = 0%nat) -> Inv s -> Inv (emit H o s).
Proof.
  intros o s Z0 (A & B & C & D). unfold Inv, emit. cbn [ListenerModel.lPending ListenerModel.lStreams ListenerModel.lOut ListenerModel.lNext].
  repeat split; intros; rewrite ?times_app, ?Z0, ?Nat.add_0_r; try (now apply A); try (now apply B); try (now apply C); now apply D.
Qed.

Lemma Inv_keep : forall id h s, Inv s -> Inv (setPending H (keep id h (lPending s)) s).
Proof.
  intros id h s (A & B & C & D). unfold Inv. cbn [setPending ListenerModel.lPending ListenerModel.lStreams ListenerModel.lOut ListenerModel.lNext].
  assert (K : forall j, find j (keep id h (lPending s)) <> None <-> find j (lPending s) <> None).
  { intros j. rewrite find_keep. destruct (id =? j)%nat; [|reflexivity]. destruct (find j (lPending s)); split; congruence. }
  split; [|split; [|split]]; intros; try (apply A; now apply K); try (now apply B); try (now apply D). rewrite K. now apply C.
Qed.

Lemma Inv_stop : forall s, Inv s -> Inv (stop H s).
Proof.
  intros s (A & B & C & D). unfold Inv, stop. cbn [setPending emit setStreams setListen ListenerModel.lPending ListenerModel.lStreams ListenerModel.lOut ListenerModel.lNext].
  split; [|split; [|split]]; intros id; rewrite ?times_app, ?times_close, ?Nat.add_0_r.
  - intros X. cbn in X. congruence.
  - apply B.
  - rewrite calls_nobody. destruct (calls id (lStreams s)) as [w|] eqn:E; [|discriminate]. destruct (existsb _ _) eqn:X; [discriminate|]. intros W. injection W as ->. destruct (C id E) as [F|F]; [|now right].
    exfalso. apply find_in in F. enough (existsb (Nat.eqb id) (map fst (lPending s)) = true) by congruence. apply existsb_exists. exists id. split; [exact F|apply Nat.eqb_refl].
  - intros L. destruct (D id L) as (D1 & D2). rewrite calls_nobody, D1. now split.
Qed.

Lemma Inv_accept : forall r s, Inv s -> Inv (accept H r s).
Proof.
  intros r s (A & B & C & D). unfold Inv, accept. destruct r; cbn [setPending emit setStreams setListen ListenerModel.lPending ListenerModel.lStreams ListenerModel.lOut ListenerModel.lNext];
  (split; [|split; [|split]]); intros id; rewrite ?times_app; cbn [calls ListenerModel.find]; change (timesHanded id [OClose (lNext s)]) with 0%nat; rewrite ?Nat.add_0_r; try apply B;
  destruct (Nat.eqb_spec (lNext s) id) as [E|N].
  - intros F. apply A in F as (F & _). rewrite <- E in F. destruct (D (lNext s) (le_n _)); congruence.
  - intros F. now apply A.
  - intros. discriminate.
  - apply C.
  - intros. lia.
  - intros. apply D. lia.
  - intros. split; [reflexivity|]. apply D. lia.
  - intros F. now apply A.
  - intros. left. discriminate.
  - apply C.
  - lia.
  - intros. apply D. lia.
Qed.

Lemma Inv_listen : forall t u s, Inv s -> Inv (setListen H t u s).
Proof. intros t u s I. exact I. Qed.

End L0.

Section L.
Variable H : Type.
Variable peNew : H.
Variable peRead : H -> list Z -> H * nat * list Z.
Variable peDone : H -> option (list Z * list Z).
Variable peBad : H -> bool.
Variable peCipher : H -> bool.
Notation listener := (ListenerModel.listener H).
Notation find := (ListenerModel.find H).
Notation erase := (ListenerModel.erase H).
Notation keep := (ListenerModel.keep H).
Notation lPending := (ListenerModel.lPending H).
Notation lStreams := (ListenerModel.lStreams H).
Notation lOut := (ListenerModel.lOut H).
Notation lNext := (ListenerModel.lNext H).
Notation step := (ListenerModel.step H peNew peRead peDone peBad peCipher).
Notation run := (ListenerModel.run H peNew peRead peDone peBad peCipher).
Notation readStreamData := (ListenerModel.readStreamData H peNew peRead peDone peBad peCipher).
Notation startPeer := (ListenerModel.startPeer H peCipher).

Notation Inv := (Inv H).

Lemma Inv_start : forall id data hash a s, calls id (lStreams s) = Some ByListener -> Inv s -> Inv (snd (startPeer id data hash a s)).
Proof.
  intros id data hash a s Cl (A & B & C & D). unfold ListenerModel.startPeer. destruct (find id (lPending s)) as [h|] eqn:F; [|exact (conj A (conj B (conj C D)))].
  assert (F' : find id (lPending s) <> None) by congruence. destruct (A id F') as (A1 & A2).
  assert (L : (id < lNext s)%nat) by (destruct (Nat.lt_ge_cases id (lNext s)) as [|G]; [assumption|destruct (D id G); congruence]).
  assert (T : forall j e, timesHanded j (lOut s ++ [OHanded id e hash data]) = (timesHanded j (lOut s) + if (id =? j)%nat then 1 else 0)%nat).
  { intros j e. rewrite times_app. f_equal. unfold timesHanded. cbn [filter isHanded]. now destruct (id =? j)%nat. }
  unfold Inv. destruct a as [|n]; cbn [snd emit setPending setStreams ListenerModel.lPending ListenerModel.lStreams ListenerModel.lOut ListenerModel.lNext];
  (split; [|split; [|split]]); intros j; rewrite ?T, ?find_erase, ?calls_give; destruct (Nat.eqb_spec id j) as [<-|N]; try congruence; rewrite ?Nat.add_0_r; intros; try (now apply A); try (now apply B); try (now apply C); try (now apply D); try lia.
Qed.

Lemma Inv_read : forall id data a s n s', calls id (lStreams s) = Some ByListener -> Inv s -> readStreamData id data a s = Ok (n, s') -> Inv s'.
Proof.
  intros id data a s n s' Cl I. unfold ListenerModel.readStreamData. destruct (length data <? 20)%nat; [intros E; injection E as <- <-; exact I|].
  destruct (startsAsHandshake data).
  - destruct (handshakeInfo data) as [hash|]; cbn [bind]; [|discriminate]. pose proof (Inv_start id data hash a s Cl I) as P. destruct (startPeer id data hash a s) as (sz, s1). cbn [snd] in P.
    intros E. injection E as <- <-. destruct (sz =? 0)%nat; [|exact P]. now apply Inv_emit.
  - destruct (getPeHandshake H peNew id s) as [h|]; [|intros E; injection E as <- <-; exact I]. destruct (peRead h data) as ((h1, sz), resp).
    intros E. injection E as <- <-. set (s1 := setPending H (keep id h1 (lPending s)) s). assert (I1 : Inv s1) by now apply Inv_keep.
    set (s2 := match resp with [] => s1 | _ => emit H [OWrote id resp] s1 end).
    assert (I2 : Inv s2) by (unfold s2; destruct resp; [exact I1|now apply Inv_emit]).
    assert (C2 : calls id (lStreams s2) = Some ByListener) by (unfold s2, s1; destruct resp; exact Cl).
    destruct (peDone h1) as [(hash, m)|]; [now apply Inv_start|]. destruct (peBad h1); [now apply Inv_emit|exact I2].
Qed.

Lemma Inv_step : forall e s s', Inv s -> step e s = Ok s' -> Inv s'.
Proof.
  intros [ok| |ok|on| |id data a|id] s s' I E; cbn [ListenerModel.step] in E.
  - injection E as <-. unfold start, createTcpListener. destruct (lTcp H s); repeat apply Inv_listen; [now apply Inv_stop|exact I].
  - injection E as <-. now apply Inv_stop.
  - injection E as <-. exact I.
  - injection E as <-. destruct (lTcp H s); [now apply Inv_accept|exact I].
  - injection E as <-. destruct (lUtp H s); [exact (Inv_accept H false s I)|exact I].
  - destruct (calls id (lStreams s)) as [[| |]|] eqn:Cl; try (injection E as <-; exact I). destruct (readStreamData id data a s) as [(n, s1)|] eqn:R; cbn [bind] in E; [|discriminate].
    injection E as <-. cbn [fst snd]. apply Inv_emit; [reflexivity|]. exact (Inv_read id data a s n s1 Cl I R).
  - destruct I as (A & B & C & D).
    assert (P : forall l, (forall j, find j l <> None -> find j (lPending s) <> None /\ j <> id) -> (forall j, j <> id -> find j (lPending s) <> None -> find j l <> None) ->
       Inv (setPending H l (setStreams H (filter (fun p => negb (fst p =? id)%nat) (lStreams s)) s))).
    { intros l K1 K2. unfold Inv. cbn [setPending setStreams ListenerModel.lPending ListenerModel.lStreams ListenerModel.lOut ListenerModel.lNext].
      split; [|split; [|split]]; intros j; rewrite ?calls_filter.
      - intros F. apply K1 in F as (F & N). destruct (Nat.eqb_spec id j); [congruence|]. now apply A.
      - apply B.
      - destruct (Nat.eqb_spec id j) as [|N]; [discriminate|]. intros X. apply C in X as [X|X]; [left; apply K2; congruence|now right].
      - intros L. destruct (D j L) as (D1 & D2). split; [|exact D2]. rewrite D1. now destruct (id =? j)%nat. }
    destruct (calls id (lStreams s)) as [w|] eqn:Cl.
    + destruct (find id (lPending s)) as [h|] eqn:F.
      * assert (w = ByListener) as -> by (assert (F' : find id (lPending s) <> None) by congruence; apply A in F' as (F' & _); congruence). injection E as <-. apply P.
        -- intros j. change (find j (erase id (lPending s)) <> None -> find j (lPending s) <> None /\ j <> id). rewrite find_erase. destruct (Nat.eqb_spec id j); [congruence|]. intros; split; congruence.
        -- intros j N G. change (find j (erase id (lPending s)) <> None). rewrite find_erase. destruct (Nat.eqb_spec id j); congruence.
      * destruct w; injection E as <-.
        -- apply P.
           ++ intros j. change (find j (erase id (lPending s)) <> None -> find j (lPending s) <> None /\ j <> id). rewrite find_erase. destruct (Nat.eqb_spec id j); [congruence|]. intros; split; congruence.
           ++ intros j N G. change (find j (erase id (lPending s)) <> None). rewrite find_erase. destruct (Nat.eqb_spec id j); congruence.
        -- change (Inv (setPending H (lPending s) (setStreams H (filter (fun p => negb (fst p =? id)%nat) (lStreams s)) s))). apply P; [|auto]. intros j G. split; [exact G|]. congruence.
        -- change (Inv (setPending H (lPending s) (setStreams H (filter (fun p => negb (fst p =? id)%nat) (lStreams s)) s))). apply P; [|auto]. intros j G. split; [exact G|]. congruence.
    + injection E as <-. change (Inv (setPending H (lPending s) (setStreams H (filter (fun p => negb (fst p =? id)%nat) (lStreams s)) s))). apply P; [|auto]. intros j G. split; [exact G|].
      apply A in G as (G & _). congruence.
Qed.

Lemma run_ind : forall (P : listener -> Prop) (Q : event -> Prop), (forall e s s', Q e -> P s -> step e s = Ok s' -> P s') ->
  forall es s s', Forall Q es -> P s -> run es s = Ok s' -> P s'.
Proof.
  intros P Q St. induction es as [|e es I]; intros s s' Qs Ps E; cbn [ListenerModel.run] in E; [injection E as <-; exact Ps|].
  destruct (step e s) as [s1|] eqn:E1; cbn [bind] in E; [|discriminate]. apply (I s1 s'); [now inversion Qs| |exact E]. apply (St e s s1); [now inversion Qs|exact Ps|exact E1].
Qed.

Lemma run_Inv : forall es s s', Inv s -> run es s = Ok s' -> Inv s'.
Proof.
  intros es s s' I E. apply (run_ind Inv (fun _ => True)) with es s; [|apply Forall_forall; auto|exact I|exact E]. intros e a b _. apply Inv_step.
Qed.

Lemma run_app : forall a b s, run (a ++ b) s = bind (run a s) (run b).
Proof. induction a as [|e a I]; intros b s; [reflexivity|]. cbn [app ListenerModel.run]. destruct (step e s) as [s1|]; cbn [bind]; [apply I|reflexivity]. Qed.

(** What a stream that is not pending can do when the listener is called *)
Lemma read_gone : forall id data a s, find id (lPending s) = None -> readStreamData id data a s =
  if (length data <? 20)%nat then Ok (0%nat, s) else if startsAsHandshake data then bind (handshakeInfo data) (fun _ => Ok (0%nat, emit H [OClose id] s)) else Ok (0%nat, s).
Proof.
  intros id data a s F. unfold ListenerModel.readStreamData, ListenerModel.startPeer, getPeHandshake. rewrite F. reflexivity.
Qed.

(** What is handed and where it is from *)
Definition From (es : list event) (o : out) : Prop :=
  match o with
  | OHanded id e hash data => exists d a, In (EData id d a) es /\
      ((startsAsHandshake d = true /\ (68 <= length d)%nat /\ hash = firstn 20 (skipn 28 d) /\ data = d) \/
       (startsAsHandshake d = false /\ exists h, peDone (fst (fst (peRead h d))) = Some (hash, data) /\ e = peCipher (fst (fst (peRead h d)))))
  | _ => True
  end.

Lemma From_mono : forall es e o, From es o -> From (e :: es) o.
Proof. intros es e [| | |] F; try exact F. destruct F as (d & a & F1 & F2). exists d, a. split; [now right|exact F2]. Qed.

Definition handsOf (o : list out) := filter (fun x => match x with OHanded _ _ _ _ => true | _ => false end) o.

Lemma start_out : forall id data hash a s, lOut (snd (startPeer id data hash a s)) = lOut s \/ (exists h, find id (lPending s) = Some h /\
   lOut (snd (startPeer id data hash a s)) = lOut s ++ [OHanded id (match h with Some p => peCipher p | None => false end) hash data]).
Proof.
  intros. unfold ListenerModel.startPeer. destruct (find id (lPending s)) as [h|]; [|now left]. right. exists h. split; [reflexivity|]. now destruct a.
Qed.

Lemma step_From : forall e s s', step e s = Ok s' -> forall o, In o (lOut s') -> In o (lOut s) \/ From [e] o.
Proof.
  intros [ok| |ok|on| |id data a|id] s s' E o X; cbn [ListenerModel.step] in E.
  - injection E as <-. unfold start, createTcpListener in X. destruct (lTcp H s); cbn in X; [|now left]. apply in_app_or in X as [X|X]; [now left|]. apply in_map_iff in X as (j & <- & _). now right.
  - injection E as <-. cbn in X. apply in_app_or in X as [X|X]; [now left|]. apply in_map_iff in X as (j & <- & _). now right.
  - injection E as <-. now left.
  - injection E as <-. destruct (lTcp H s); [|now left]. unfold accept in X. destruct (negb on); cbn in X; [|now left]. apply in_app_or in X as [X|[<-|[]]]; [now left|now right].
  - injection E as <-. destruct (lUtp H s); [|now left]. unfold accept in X. cbn in X. now left.
  - destruct (calls id (lStreams s)) as [[| |]|] eqn:Cl; try (injection E as <-; now left). destruct (readStreamData id data a s) as [(n, s1)|] eqn:R; cbn [bind] in E; [|discriminate].
    injection E as <-. cbn [fst snd emit ListenerModel.lOut] in X. apply in_app_or in X as [X|[<-|[]]]; [|now right].
    unfold ListenerModel.readStreamData in R. destruct (length data <? 20)%nat; [injection R as <- <-; now left|]. destruct (startsAsHandshake data) eqn:SH.
    + unfold handshakeInfo in R. destruct (Nat.ltb_spec (length data) 68) as [|L]; cbn [bind] in R; [discriminate|]. pose proof (start_out id data (firstn 20 (skipn 28 data)) a s) as SO.
      destruct (startPeer id data (firstn 20 (skipn 28 data)) a s) as (sz, s2). cbn [snd] in SO. injection R as <- <-.
      assert (Y : In o (lOut s2) -> In o (lOut s) \/ From [EData id data a] o).
      { intros Y. destruct SO as [SO|(h & _ & SO)]; rewrite SO in Y; [now left|]. apply in_app_or in Y as [Y|[<-|[]]]; [now left|]. right. exists data, a. split; [now left|]. now left. }
      destruct (sz =? 0)%nat; [|now apply Y]. cbn [emit ListenerModel.lOut] in X. apply in_app_or in X as [X|[<-|[]]]; [now apply Y|now right].
    + destruct (getPeHandshake H peNew id s) as [h|] eqn:G; [|injection R as <- <-; now left]. destruct (peRead h data) as ((h1, sz), resp) eqn:PR. injection R as <- <-.
      set (s3 := setPending H (keep id h1 (lPending s)) s) in *. set (s2 := match resp with [] => s3 | _ => emit H [OWrote id resp] s3 end) in *.
      assert (O2 : In o (lOut s2) -> In o (lOut s) \/ From [EData id data a] o).
      { unfold s2, s3. destruct resp; cbn; [now left|]. intros Y. apply in_app_or in Y as [Y|[<-|[]]]; [now left|now right]. }
      destruct (peDone h1) as [(hash, m)|] eqn:PD.
      * destruct (start_out id m hash a s2) as [SO|(g & F & SO)]; rewrite SO in X; [now apply O2|]. apply in_app_or in X as [X|[<-|[]]]; [now apply O2|]. right. exists data, a. split; [now left|]. right. split; [exact SH|]. exists h. rewrite PR. cbn [fst]. split; [exact PD|].
        assert (F2 : find id (keep id h1 (lPending s)) = Some g) by (revert F; unfold s2, s3; destruct resp; exact (fun x => x)). rewrite find_keep, Nat.eqb_refl in F2. destruct (find id (lPending s)); [|discriminate]. injection F2 as <-. reflexivity.
      * destruct (peBad h1); [|now apply O2]. cbn [emit ListenerModel.lOut] in X. apply in_app_or in X as [X|[<-|[]]]; [now apply O2|now right].
  - destruct (calls id (lStreams s)) as [[| |]|]; injection E as <-; now left.
Qed.

Lemma run_From : forall es s s', run es s = Ok s' -> forall o, In o (lOut s') -> In o (lOut s) \/ From es o.
Proof.
  induction es as [|e es I]; intros s s' E o X; cbn [ListenerModel.run] in E; [injection E as <-; now left|].
  destruct (step e s) as [s1|] eqn:E1; cbn [bind] in E; [|discriminate]. destruct (I s1 s' E o X) as [Y|Y]; [|right; now apply From_mono].
  destruct (step_From e s s1 E1 o Y) as [Z0|Z0]; [now left|]. right. destruct o; try exact Logic.I. destruct Z0 as (d & a & [Z0|[]] & Z1). exists d, a. split; [left; exact Z0|exact Z1].
Qed.

End L.
