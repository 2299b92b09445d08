(** C29: settings are saved and loaded back, and changes are applied and saved. *)
From Verif Require Import Base BaseLemmas DecLemmas XmlModel XmlProofs ConfigModel.
From Coq Require Import String.
From Coq Require Import List.
Import ListNotations.
Local Close Scope string_scope.

(** ** The file *)

Definition vtok (depth : nat) (name : list Z) (v : list Z) : list token := [(indent depth, TOpen name); (v, TClose name)].
Definition ctok (depth : nat) (name : list Z) (v : list Z) : list token := [(indent depth, TOpen name); ([], TCdata v); ([], TClose name)].

(** The tokens of a file with the given texts as values. *)
Definition cfgTokens (h n1 n2 n3 n4 n5 n6 n7 n8 n9 n10 n11 d : list Z) : list token :=
  [([], TOpen (txt "config")); (indent 1, TOpen (txt "internal"))] ++ ctok 2 (txt "hashId") h ++ [(indent 1, TClose (txt "internal")); (indent 1, TOpen (txt "external"));
   (indent 2, TOpen (txt "connection"))] ++ vtok 3 (txt "tcpPort") n1 ++ vtok 3 (txt "udpPort") n2 ++ vtok 3 (txt "maxTorrentConnections") n3 ++ vtok 3 (txt "upnpPortMapping") n4 ++
   vtok 3 (txt "enableTcpIn") n5 ++ vtok 3 (txt "enableTcpOut") n6 ++ vtok 3 (txt "enableUtpIn") n7 ++ vtok 3 (txt "enableUtpOut") n8 ++ [(indent 2, TClose (txt "connection"));
   (indent 2, TOpen (txt "dht"))] ++ vtok 3 (txt "enabled") n9 ++ [(indent 2, TClose (txt "dht")); (indent 2, TOpen (txt "transfer"))] ++
   vtok 3 (txt "maxDownloadSpeed") n10 ++ vtok 3 (txt "maxUploadSpeed") n11 ++ [(indent 2, TClose (txt "transfer")); (indent 2, TOpen (txt "files"))] ++ ctok 3 (txt "directory") d ++
   [(indent 2, TClose (txt "files")); (indent 1, TClose (txt "external")); (indent 0, TClose (txt "config"))].

Definition tokensOf (h : list Z) (e : external) : list token :=
  let c := conn e in
  cfgTokens h (toString (tcpPort c)) (toString (udpPort c)) (toString (maxConns c)) (toString (b2z (upnp c))) (toString (b2z (tcpIn c))) (toString (b2z (tcpOut c)))
    (toString (b2z (utpIn c))) (toString (b2z (utpOut c))) (toString (b2z (dhtEnabled e))) (toString (maxDown e)) (toString (maxUp e)) (directory e).

Lemma saveText_tokens h e : saveText h e = render (tokensOf h e).
Proof.
  unfold saveText, tokensOf, cfgTokens, vtok, ctok, render, wNumber, wValue, wCData, wRoot, wChild, wClose. cbn zeta.
  generalize (toString (tcpPort (conn e))) (toString (udpPort (conn e))) (toString (maxConns (conn e))) (toString (b2z (upnp (conn e))))
    (toString (b2z (tcpIn (conn e)))) (toString (b2z (tcpOut (conn e)))) (toString (b2z (utpIn (conn e)))) (toString (b2z (utpOut (conn e))))
    (toString (b2z (dhtEnabled e))) (toString (maxDown e)) (toString (maxUp e)) (directory e).
  intros. cbn [app map concat fst snd renderTag]. rewrite <- !app_assoc. reflexivity.
Qed.

Definition plain (l : list Z) : Prop := no_lt l /\ l <> [].

Lemma digits_plain n : 0 <= n -> plain (toString n).
Proof.
  intros H. destruct (toString_ok n H) as (_ & B & C). split; [|exact C]. unfold no_lt. apply forallb_forall. intros x I. eapply forallb_forall in B; [|exact I].
  apply isDigit_range in B. destruct (Z.eqb_spec x 60); [lia|reflexivity].
Qed.

Ltac names := repeat (apply Forall_cons; [split; [reflexivity || assumption|cbn [snd tag_ok]; try reflexivity; try (refine (conj eq_refl (conj _ (conj _ (conj _ (conj _ _))))); vm_compute; congruence)]|]); try apply Forall_nil.

Lemma cfgTokens_ok h n1 n2 n3 n4 n5 n6 n7 n8 n9 n10 n11 d : cdata_ok h -> cdata_ok d ->
  plain n1 -> plain n2 -> plain n3 -> plain n4 -> plain n5 -> plain n6 -> plain n7 -> plain n8 -> plain n9 -> plain n10 -> plain n11 ->
  Forall token_ok (cfgTokens h n1 n2 n3 n4 n5 n6 n7 n8 n9 n10 n11 d).
Proof.
  intros H D [P1 _] [P2 _] [P3 _] [P4 _] [P5 _] [P6 _] [P7 _] [P8 _] [P9 _] [P10 _] [P11 _]. unfold cfgTokens, vtok, ctok. cbn [app]. names; assumption.
Qed.

(** Loading any file of this form. *)
Lemma load_tokens dd h0 e0 b0 h n1 n2 n3 n4 n5 n6 n7 n8 n9 n10 n11 d v1 v2 v3 v4 v5 v6 v7 v8 v9 v10 v11 :
  cdata_ok h -> cdata_ok d ->
  plain n1 -> plain n2 -> plain n3 -> plain n4 -> plain n5 -> plain n6 -> plain n7 -> plain n8 -> plain n9 -> plain n10 -> plain n11 ->
  (forall n v, In (n, v) [(n1,v1);(n2,v2);(n3,v3);(n4,v4);(n5,v5);(n6,v6);(n7,v7);(n8,v8);(n9,v9);(n10,v10);(n11,v11)] -> exists k, strtoull (n ++ [60]) = Some (v, k)) ->
  loadText dd (Some (render (cfgTokens h n1 n2 n3 n4 n5 n6 n7 n8 n9 n10 n11 d))) h0 e0 b0 =
  Ok (if zlen h =? 20 then h else h0,
      {| conn := {| tcpPort := u16 v1; udpPort := u16 v2; maxConns := u32 v3; upnp := toBool v4; tcpIn := toBool v5; tcpOut := toBool v6; utpIn := toBool v7; utpOut := toBool v8;
                    preferUtp := preferUtp (conn e0); enc := enc (conn e0) |};
         dhtEnabled := toBool v9; maxDown := u32 v10; maxUp := u32 v11; directory := match d with [] => dd | _ => d end |}, false).
Proof.
  intros H D P1 P2 P3 P4 P5 P6 P7 P8 P9 P10 P11 V. unfold loadText. rewrite parse_tokens by (apply cfgTokens_ok; assumption).
  destruct P1 as [_ P1], P2 as [_ P2], P3 as [_ P3], P4 as [_ P4], P5 as [_ P5], P6 as [_ P6], P7 as [_ P7], P8 as [_ P8], P9 as [_ P9], P10 as [_ P10], P11 as [_ P11].
  destruct n1 as [|x1 n1]; [congruence|]. destruct n2 as [|x2 n2]; [congruence|]. destruct n3 as [|x3 n3]; [congruence|]. destruct n4 as [|x4 n4]; [congruence|].
  destruct n5 as [|x5 n5]; [congruence|]. destruct n6 as [|x6 n6]; [congruence|]. destruct n7 as [|x7 n7]; [congruence|]. destruct n8 as [|x8 n8]; [congruence|].
  destruct n9 as [|x9 n9]; [congruence|]. destruct n10 as [|x10 n10]; [congruence|]. destruct n11 as [|x11 n11]; [congruence|]. clear - V.
  match goal with |- context[fold_left exec ?t ?s] => let v := eval vm_compute in (fold_left exec t s) in change (fold_left exec t s) with v end.
  cbn zeta. cbn [xels xstack].
  unfold inNode, xvalueNamed, loadExternal, loadConn, inNode, readNum, readText, xnumber.
  match goal with |- context[firstNamed ?l _ _] => set (els := l) end.
  repeat (match goal with
          | |- context[firstNamed els ?i ?n] => let v := eval vm_compute in (firstNamed els i n) in change (firstNamed els i n) with v
          | |- context[xvalue els ?i] => let v := eval vm_compute in (xvalue els i) in change (xvalue els i) with v
          end; cbn [bind]).
  clear els.
  repeat match goal with |- context[strtoull (?n ++ [60])] =>
    let k := fresh in let E := fresh in
    destruct (V n _ ltac:(cbn; eauto 20)) as (k & E); rewrite E; clear E k; cbn [bind] end.
  cbn [fst snd directory conn dhtEnabled maxDown maxUp]. destruct d; reflexivity.
Qed.

(** The ranges of the types. *)
Definition conn_ok (c : connCfg) : Prop := 0 <= tcpPort c < 65536 /\ 0 <= udpPort c < 65536 /\ 0 <= maxConns c < 4294967296.
Definition external_ok (e : external) : Prop := conn_ok (conn e) /\ 0 <= maxDown e < 4294967296 /\ 0 <= maxUp e < 4294967296 /\ bytes_ok (directory e).

(** [old] with the fields of [e] which the file keeps. *)
Definition restored (old e : external) : external :=
  {| conn := {| tcpPort := tcpPort (conn e); udpPort := udpPort (conn e); maxConns := maxConns (conn e); upnp := upnp (conn e); tcpIn := tcpIn (conn e); tcpOut := tcpOut (conn e);
                utpIn := utpIn (conn e); utpOut := utpOut (conn e); preferUtp := preferUtp (conn old); enc := enc (conn old) |};
     dhtEnabled := dhtEnabled e; maxDown := maxDown e; maxUp := maxUp e; directory := directory e |}.

Lemma b2z_range b : 0 <= b2z b < 18446744073709551616.
Proof. destruct b; cbn; lia. Qed.
Lemma toBool_b2z b : toBool (b2z b) = b.
Proof. destruct b; reflexivity. Qed.

Lemma number_back n : 0 <= n < 18446744073709551616 -> exists k, strtoull (toString n ++ [60]) = Some (n, k).
Proof. intros H. eexists. apply strtoull_toString; [exact H|reflexivity]. Qed.

Lemma load_saved dd h0 e0 b0 h e : zlen h = 20 -> cdata_ok h -> external_ok e -> cdata_ok (directory e) -> directory e <> [] ->
  loadText dd (Some (saveText h e)) h0 e0 b0 = Ok (h, restored e0 e, false).
Proof.
  intros L H ((T1 & T2 & T3) & R1 & R2 & _) D DN. rewrite saveText_tokens. unfold tokensOf. cbn zeta.
  pose proof (b2z_range (upnp (conn e))). pose proof (b2z_range (tcpIn (conn e))). pose proof (b2z_range (tcpOut (conn e))). pose proof (b2z_range (utpIn (conn e))).
  pose proof (b2z_range (utpOut (conn e))). pose proof (b2z_range (dhtEnabled e)).
  erewrite load_tokens with (v1 := tcpPort (conn e)) (v2 := udpPort (conn e)) (v3 := maxConns (conn e)) (v4 := b2z (upnp (conn e))) (v5 := b2z (tcpIn (conn e)))
    (v6 := b2z (tcpOut (conn e))) (v7 := b2z (utpIn (conn e))) (v8 := b2z (utpOut (conn e))) (v9 := b2z (dhtEnabled e)) (v10 := maxDown e) (v11 := maxUp e);
    try assumption; try (apply digits_plain; lia).
  - rewrite L. cbn [Z.eqb Pos.eqb]. rewrite !toBool_b2z. unfold u16, u32. rewrite !Z.mod_small by lia. unfold restored. destruct (directory e) eqn:E; [congruence|]. reflexivity.
  - intros n v I. cbn [In] in I. repeat (destruct I as [I|I]; [injection I as <- <-; apply number_back; lia|]). contradiction.
Qed.

(** C29, the part which holds: every saved setting but the two below is loaded back, if the
    directory is not empty and neither it nor the identity has "]]>" in it. *)
Theorem C29_round_trip_partial : forall defaultDir h0 e0 b0 h e, zlen h = 20 -> cdata_ok h -> external_ok e -> cdata_ok (directory e) -> directory e <> [] ->
  exists e', loadText defaultDir (Some (saveText h e)) h0 e0 b0 = Ok (h, e', false) /\
    dhtEnabled e' = dhtEnabled e /\ maxDown e' = maxDown e /\ maxUp e' = maxUp e /\ directory e' = directory e /\
    tcpPort (conn e') = tcpPort (conn e) /\ udpPort (conn e') = udpPort (conn e) /\ maxConns (conn e') = maxConns (conn e) /\ upnp (conn e') = upnp (conn e) /\
    tcpIn (conn e') = tcpIn (conn e) /\ tcpOut (conn e') = tcpOut (conn e) /\ utpIn (conn e') = utpIn (conn e) /\ utpOut (conn e') = utpOut (conn e).
Proof. intros. exists (restored e0 e). rewrite load_saved by assumption. repeat split. Qed.
Print Assumptions C29_round_trip_partial.

(** Finding: the encryption setting and the preference for uTP are not in the file: whatever was
    saved, after a restart they are the defaults. *)
Theorem C29_encryption_refuted : forall defaultDir h0 h e r, zlen h = 20 -> cdata_ok h -> external_ok e -> cdata_ok (directory e) -> directory e <> [] ->
  loadText defaultDir (Some (saveText h e)) h0 externalDefault true = Ok r -> enc (conn (snd (fst r))) = EncAllow /\ preferUtp (conn (snd (fst r))) = false.
Proof. intros defaultDir h0 h e r L H E D N. rewrite load_saved by assumption. intros X. injection X as <-. split; reflexivity. Qed.
Print Assumptions C29_encryption_refuted.

(** Finding: a directory with "]]>" in its name is cut there. *)
Theorem C29_directory_refuted : exists e r, external_ok e /\ loadText [46] (Some (saveText (repeat 65 20) e)) (repeat 66 20) externalDefault true = Ok r /\
  directory (snd (fst r)) = txt "/a" /\ directory e = txt "/a]]>/b".
Proof.
  exists {| conn := connDefault; dhtEnabled := true; maxDown := 0; maxUp := 0; directory := txt "/a]]>/b" |}. eexists.
  split; [|split; [vm_compute; reflexivity|split; reflexivity]]. repeat split; cbn; try lia. repeat constructor; unfold is_byte; lia.
Qed.
Print Assumptions C29_directory_refuted.

Example ex_round : match loadText [46] (Some (saveText (repeat 65 20)
    {| conn := {| tcpPort := 1; udpPort := 65535; maxConns := 7; upnp := true; tcpIn := false; tcpOut := true; utpIn := false; utpOut := false; preferUtp := true; enc := EncRequire |};
       dhtEnabled := false; maxDown := 4294967295; maxUp := 12; directory := txt "/d]x]" |})) (repeat 66 20) externalDefault true with
  | Ok (h, e, d) => h = repeat 65 20 /\ tcpPort (conn e) = 1 /\ maxDown e = 4294967295 /\ directory e = txt "/d]x]" /\ dhtEnabled e = false /\ d = false
  | UB => False end.
Proof. vm_compute. auto 10. Qed.

(** ** Changes *)

(** What a setting means to its user: every field of the group. *)
Definition conn_same (a b : connCfg) : Prop :=
  tcpPort a = tcpPort b /\ udpPort a = udpPort b /\ maxConns a = maxConns b /\ upnp a = upnp b /\ tcpIn a = tcpIn b /\ tcpOut a = tcpOut b /\ utpIn a = utpIn b /\ utpOut a = utpOut b /\ enc a = enc b.

Lemma encEqb_iff a b : encEqb a b = true <-> a = b.
Proof. destruct a, b; cbn; split; congruence. Qed.
Lemma vtypeEqb_iff a b : vtypeEqb a b = true <-> a = b.
Proof. destruct a, b; cbn; split; congruence. Qed.

(** After a change of kind [t]: the file is the text of the new settings and each callback
    registered for that kind has been run once more, in order, and no other. *)
Definition changed_to (t : vtype) (s s' : cfg) (e : external) : Prop :=
  cExt s' = e /\ cFile s' = Some (saveText (cHash s) e) /\ cHash s' = cHash s /\ cDirty s' = true /\ cCbs s' = cCbs s /\
  exists run, cCalled s' = cCalled s ++ run /\ (forall n, In n run <-> In (n, t) (cCbs s)).

Lemma trigger_ok t s : changed_to t s (triggerChange true t s) (cExt s).
Proof.
  unfold changed_to, triggerChange, saveCfg. cbn. refine (conj eq_refl (conj eq_refl (conj eq_refl (conj eq_refl (conj eq_refl _))))).
  eexists. split; [reflexivity|]. intros n. rewrite in_map_iff. split.
  - intros ([n' t'] & <- & I). apply filter_In in I as [I E]. apply vtypeEqb_iff in E. cbn in *. now subst.
  - intros I. exists (n, t). split; [reflexivity|]. apply filter_In. split; [exact I|]. now apply vtypeEqb_iff.
Qed.

(** C29: a changed connection setting is applied, saved and announced; without a change nothing
    happens at all. *)
Theorem C29_set_connection : forall v s,
  (conn_same v (conn (cExt s)) -> setConn true v s = s) /\
  (~ conn_same v (conn (cExt s)) -> changed_to VConnection s (setConn true v s)
     {| conn := v; dhtEnabled := dhtEnabled (cExt s); maxDown := maxDown (cExt s); maxUp := maxUp (cExt s); directory := directory (cExt s) |}).
Proof.
  intros v s. split.
  - intros (A & B & C & D & E & F & G & H & I). unfold setConn. rewrite A, B, C, D, E, F, G, H, I, !Z.eqb_refl, !Bool.xorb_nilpotent.
    assert (X : encEqb (enc (conn (cExt s))) (enc (conn (cExt s))) = true) by now apply encEqb_iff. rewrite X. reflexivity.
  - intros N. unfold setConn. cbn zeta. match goal with |- context[if ?b then _ else _] => destruct b eqn:E end.
    + apply (trigger_ok VConnection (withExt s _)).
    + exfalso. apply N. repeat (apply orb_false_iff in E as [E ?]).
      repeat match goal with H : negb (_ =? _) = false |- _ => apply negb_false_iff, Z.eqb_eq in H | H : xorb _ _ = false |- _ => apply Bool.xorb_eq in H
        | H : negb (encEqb _ _) = false |- _ => apply negb_false_iff, encEqb_iff in H end.
      unfold conn_same; tauto.
Qed.
Print Assumptions C29_set_connection.

Theorem C29_set_dht : forall v s, (v = dhtEnabled (cExt s) -> setDht true v s = s) /\
  (v <> dhtEnabled (cExt s) -> changed_to VDht s (setDht true v s) {| conn := conn (cExt s); dhtEnabled := v; maxDown := maxDown (cExt s); maxUp := maxUp (cExt s); directory := directory (cExt s) |}).
Proof.
  intros v s. unfold setDht. cbn zeta. destruct (xorb v (dhtEnabled (cExt s))) eqn:E; split; intros H.
  - subst. rewrite Bool.xorb_nilpotent in E. discriminate.
  - apply (trigger_ok VDht (withExt s _)).
  - reflexivity.
  - now apply Bool.xorb_eq in E.
Qed.
Print Assumptions C29_set_dht.

Theorem C29_set_directory : forall v s, (v = directory (cExt s) -> setFiles true v s = s) /\
  (v <> directory (cExt s) -> changed_to VFiles s (setFiles true v s) {| conn := conn (cExt s); dhtEnabled := dhtEnabled (cExt s); maxDown := maxDown (cExt s); maxUp := maxUp (cExt s); directory := v |}).
Proof.
  intros v s. unfold setFiles. cbn zeta. destruct (list_eqb v (directory (cExt s))) eqn:E; split; intros H.
  - reflexivity.
  - apply list_eqb_spec in E. contradiction.
  - subst. rewrite list_eqb_refl in E. discriminate.
  - apply (trigger_ok VFiles (withExt s _)).
Qed.
Print Assumptions C29_set_directory.

Theorem C29_set_transfer : forall d u s, (d = maxDown (cExt s) /\ u = maxUp (cExt s) -> setTransfer true (d, u) s = s) /\
  (~ (d = maxDown (cExt s) /\ u = maxUp (cExt s)) -> changed_to VTransfer s (setTransfer true (d, u) s) {| conn := conn (cExt s); dhtEnabled := dhtEnabled (cExt s); maxDown := d; maxUp := u; directory := directory (cExt s) |}).
Proof.
  intros d u s. unfold setTransfer. cbn zeta. cbn [fst snd]. destruct (Z.eqb_spec d (maxDown (cExt s))), (Z.eqb_spec u (maxUp (cExt s))); cbn [negb orb]; split; intros H;
    try reflexivity; try (exfalso; tauto); apply (trigger_ok VTransfer (withExt s _)).
Qed.
Print Assumptions C29_set_transfer.

(** Finding: setting only the preference for uTP changes nothing. *)
Theorem C29_prefer_refuted : forall s b, let c := conn (cExt s) in
  setConn true {| tcpPort := tcpPort c; udpPort := udpPort c; maxConns := maxConns c; upnp := upnp c; tcpIn := tcpIn c; tcpOut := tcpOut c; utpIn := utpIn c; utpOut := utpOut c; preferUtp := b; enc := enc c |} s = s.
Proof. intros s b c. apply C29_set_connection. repeat split. Qed.
Print Assumptions C29_prefer_refuted.

(** ** Applied and saved, over any sequence of changes *)

Inductive cfgOp := OConn (v : connCfg) | ODht (v : bool) | OFiles (v : list Z) | OTransfer (d u : Z) | OAll (v : external) | OReg (t : vtype) | OUnreg (n : Z).
Definition cfgStep (s : cfg) (o : cfgOp) : cfg :=
  match o with
  | OConn v => setConn true v s | ODht v => setDht true v s | OFiles v => setFiles true v s | OTransfer d u => setTransfer true (d, u) s
  | OAll v => setAll true v s | OReg t => snd (registerCb t s) | OUnreg n => unregisterCb n s
  end.
Definition synced (s : cfg) : Prop := forall text, cFile s = Some text -> text = saveText (cHash s) (cExt s).

Lemma conn_same_dec a b : conn_same a b \/ ~ conn_same a b.
Proof.
  unfold conn_same. destruct (Z.eq_dec (tcpPort a) (tcpPort b)), (Z.eq_dec (udpPort a) (udpPort b)), (Z.eq_dec (maxConns a) (maxConns b)),
    (Bool.bool_dec (upnp a) (upnp b)), (Bool.bool_dec (tcpIn a) (tcpIn b)), (Bool.bool_dec (tcpOut a) (tcpOut b)), (Bool.bool_dec (utpIn a) (utpIn b)),
    (Bool.bool_dec (utpOut a) (utpOut b)); try tauto.
  destruct (encEqb (enc a) (enc b)) eqn:X; [apply encEqb_iff in X; tauto|]. right. intros (_ & _ & _ & _ & _ & _ & _ & _ & Y). apply encEqb_iff in Y. congruence.
Qed.

Lemma conn_eta (a b : connCfg) : conn_same a b -> preferUtp a = preferUtp b -> a = b.
Proof. destruct a, b. cbn. unfold conn_same. cbn. intros (A & B & C & D & E & F & G & H & I) J. congruence. Qed.

Lemma changed_synced t s s' e : changed_to t s s' e -> synced s'.
Proof. intros (A & B & C & _) text E. rewrite A, C. congruence. Qed.

Lemma set_synced s : synced s -> forall o, synced (cfgStep s o).
Proof.
  assert (K1 : forall v s, synced s -> synced (setConn true v s)).
  { intros v s0 S. destruct (C29_set_connection v s0) as [A B].
    destruct (conn_same_dec v (conn (cExt s0))) as [D|D]; [rewrite A by assumption; exact S|eapply changed_synced; eauto]. }
  assert (K2 : forall v s, synced s -> synced (setDht true v s)).
  { intros v s0 S. destruct (C29_set_dht v s0) as [A B]. destruct (Bool.bool_dec v (dhtEnabled (cExt s0))); [rewrite A by assumption; exact S|eapply changed_synced; eauto]. }
  assert (K3 : forall v s, synced s -> synced (setFiles true v s)).
  { intros v s0 S. destruct (C29_set_directory v s0) as [A B]. destruct (list_eq_dec Z.eq_dec v (directory (cExt s0))); [rewrite A by assumption; exact S|eapply changed_synced; eauto]. }
  assert (K4 : forall d u s, synced s -> synced (setTransfer true (d, u) s)).
  { intros d u s0 S. destruct (C29_set_transfer d u s0) as [A B]. destruct (Z.eq_dec d (maxDown (cExt s0))), (Z.eq_dec u (maxUp (cExt s0))); try (rewrite A by tauto; exact S); eapply changed_synced; apply B; tauto. }
  intros S [v|v|v|d u|v|t|n]; cbn [cfgStep]; auto. unfold setAll. auto.
Qed.

(** C29: after any sequence of changes the file, once written, holds the present settings: what
    loads back after a crash at any time is what the user last set (but for the findings). *)
Theorem C29_always_saved : forall ops s, synced s -> synced (fold_left cfgStep ops s).
Proof. induction ops as [|o ops IH]; intros s S; [exact S|]. cbn [fold_left]. apply IH, set_synced, S. Qed.
Print Assumptions C29_always_saved.

Example ex_synced : let s := fold_left cfgStep [OReg VDht; ODht false; OFiles [47]; ODht false]
    {| cHash := repeat 65 20; cExt := externalDefault; cDirty := false; cFile := None; cCbs := []; cReg := 1; cCalled := [] |} in
  cFile s = Some (saveText (repeat 65 20) (cExt s)) /\ cCalled s = [2] /\ directory (cExt s) = [47].
Proof. vm_compute. auto. Qed.

(** ** Setting everything, callbacks, and what is not written *)

(** C29: a file whose settings were loaded and not changed since is not written again. *)
Theorem C29_unchanged_not_written : forall defaultDir h0 e0 b0 w h e cbs n called, zlen h = 20 -> cdata_ok h -> external_ok e -> cdata_ok (directory e) -> directory e <> [] ->
  exists h' e' d, loadText defaultDir (Some (saveText h e)) h0 e0 b0 = Ok (h', e', d) /\
    forall file, let s := {| cHash := h'; cExt := e'; cDirty := d; cFile := file; cCbs := cbs; cReg := n; cCalled := called |} in saveCfg w s = s.
Proof. intros. exists h, (restored e0 e), false. rewrite load_saved by assumption. split; reflexivity. Qed.
Print Assumptions C29_unchanged_not_written.

(** C29: setting everything at once sets every group. *)
Theorem C29_set_all : forall v s, let s' := setAll true v s in
  conn_same (conn (cExt s')) (conn v) /\ dhtEnabled (cExt s') = dhtEnabled v /\ maxDown (cExt s') = maxDown v /\ maxUp (cExt s') = maxUp v /\ directory (cExt s') = directory v /\
  cHash s' = cHash s /\ cCbs s' = cCbs s.
Proof.
  intros v s s'. unfold s', setAll. set (s1 := setFiles true (directory v) s). set (s2 := setConn true (conn v) s1). set (s3 := setDht true (dhtEnabled v) s2).
  assert (A1 : directory (cExt s1) = directory v /\ cHash s1 = cHash s /\ cCbs s1 = cCbs s).
  { unfold s1. destruct (C29_set_directory (directory v) s) as [A B]. destruct (list_eq_dec Z.eq_dec (directory v) (directory (cExt s))) as [E|E].
    - rewrite (A E). auto.
    - destruct (B E) as (B1 & _ & B3 & _ & B5 & _). rewrite B1, B3, B5. auto. }
  assert (A2 : conn_same (conn (cExt s2)) (conn v) /\ directory (cExt s2) = directory v /\ cHash s2 = cHash s /\ cCbs s2 = cCbs s).
  { unfold s2. destruct (C29_set_connection (conn v) s1) as [A B]. destruct (conn_same_dec (conn v) (conn (cExt s1))) as [E|E].
    - rewrite (A E). split; [|tauto]. unfold conn_same in *. intuition congruence.
    - destruct (B E) as (B1 & _ & B3 & _ & B5 & _). rewrite B1, B3, B5. cbn [conn directory]. split; [|tauto]. unfold conn_same. tauto. }
  assert (A3 : dhtEnabled (cExt s3) = dhtEnabled v /\ conn_same (conn (cExt s3)) (conn v) /\ directory (cExt s3) = directory v /\ cHash s3 = cHash s /\ cCbs s3 = cCbs s).
  { unfold s3. destruct (C29_set_dht (dhtEnabled v) s2) as [A B]. destruct (Bool.bool_dec (dhtEnabled v) (dhtEnabled (cExt s2))) as [E|E].
    - rewrite (A E). auto.
    - destruct (B E) as (B1 & _ & B3 & _ & B5 & _). rewrite B1, B3, B5. cbn [conn directory dhtEnabled]. tauto. }
  destruct (C29_set_transfer (maxDown v) (maxUp v) s3) as [A B].
  assert (D : (maxDown v = maxDown (cExt s3) /\ maxUp v = maxUp (cExt s3)) \/ ~ (maxDown v = maxDown (cExt s3) /\ maxUp v = maxUp (cExt s3))) by lia.
  destruct D as [E|E].
  - rewrite (A E). destruct E. intuition congruence.
  - destruct (B E) as (B1 & _ & B3 & _ & B5 & _). rewrite B1, B3, B5. cbn [conn directory dhtEnabled maxDown maxUp]. tauto.
Qed.
Print Assumptions C29_set_all.

Definition numbered (s : cfg) : Prop := NoDup (map fst (cCbs s)) /\ Forall (fun c => fst c <= cReg s) (cCbs s).

Lemma set_cbs s o : match o with OReg _ | OUnreg _ => True | _ => cCbs (cfgStep s o) = cCbs s /\ cReg (cfgStep s o) = cReg s end.
Proof.
  assert (T : forall t s, cCbs (triggerChange true t s) = cCbs s /\ cReg (triggerChange true t s) = cReg s) by (intros; unfold triggerChange, saveCfg; cbn; auto).
  assert (K1 : forall v s, cCbs (setConn true v s) = cCbs s /\ cReg (setConn true v s) = cReg s).
  { intros v s0. unfold setConn. cbn zeta. match goal with |- context [if ?b then _ else _] => destruct b end; [rewrite !(proj1 (T _ _)), !(proj2 (T _ _))|]; auto. }
  assert (K2 : forall v s, cCbs (setDht true v s) = cCbs s /\ cReg (setDht true v s) = cReg s).
  { intros v s0. unfold setDht. cbn zeta. match goal with |- context [if ?b then _ else _] => destruct b end; [rewrite !(proj1 (T _ _)), !(proj2 (T _ _))|]; auto. }
  assert (K3 : forall v s, cCbs (setFiles true v s) = cCbs s /\ cReg (setFiles true v s) = cReg s).
  { intros v s0. unfold setFiles. cbn zeta. match goal with |- context [if ?b then _ else _] => destruct b end; [|rewrite !(proj1 (T _ _)), !(proj2 (T _ _))]; auto. }
  assert (K4 : forall v s, cCbs (setTransfer true v s) = cCbs s /\ cReg (setTransfer true v s) = cReg s).
  { intros v s0. unfold setTransfer. cbn zeta. match goal with |- context [if ?b then _ else _] => destruct b end; [rewrite !(proj1 (T _ _)), !(proj2 (T _ _))|]; auto. }
  destruct o; cbn [cfgStep]; auto. unfold setAll. rewrite !(proj1 (K4 _ _)), !(proj2 (K4 _ _)), !(proj1 (K2 _ _)), !(proj2 (K2 _ _)), !(proj1 (K1 _ _)), !(proj2 (K1 _ _)), !(proj1 (K3 _ _)), !(proj2 (K3 _ _)). auto.
Qed.

Lemma numbered_step s o : numbered s -> numbered (cfgStep s o).
Proof.
  intros [N F]. pose proof (set_cbs s o) as S. destruct o as [v|v|v|d u|v|t|n]; try (destruct S as [S1 S2]; unfold numbered; rewrite S1, S2; now split).
  - cbn [cfgStep registerCb snd]. split; cbn [cCbs cReg].
    + rewrite map_app. cbn [map fst]. rewrite <- (rev_involutive (map fst (cCbs s) ++ [cReg s + 1])). apply NoDup_rev. rewrite rev_app_distr. cbn [rev app]. constructor; [|now apply NoDup_rev].
      rewrite <- in_rev. intros I. apply in_map_iff in I as (c & E & I). rewrite Forall_forall in F. specialize (F c I). lia.
    + apply Forall_app. split; [|constructor; [cbn; lia|constructor]]. eapply Forall_impl; [|exact F]. intros a H. cbn beta in *. lia.
  - cbn [cfgStep]. unfold unregisterCb. split; cbn [cCbs cReg].
    + clear F. induction (cCbs s) as [|c l IH]; [constructor|]. cbn [map] in N. inversion N as [|x y N1 N2]; subst. cbn [filter]. destruct (negb (fst c =? n)); [|now apply IH].
      cbn [map]. constructor; [|now apply IH]. intros I. apply N1. apply in_map_iff in I as (d & E & I). apply filter_In in I as [I _]. apply in_map_iff. eauto.
    + rewrite Forall_forall in *. intros c I. apply filter_In in I as [I _]. auto.
Qed.

(** C29: registered callbacks have different numbers, and those registered are exactly the ones
    not unregistered since: after any sequence of calls, a callback registered now is in the list
    under a number no other one has, and unregistering it leaves exactly the others. *)
Theorem C29_callbacks : forall ops s t, numbered s -> let s1 := fold_left cfgStep ops s in let '(n, s2) := registerCb t s1 in
  cCbs s2 = cCbs s1 ++ [(n, t)] /\ ~ In n (map fst (cCbs s1)) /\ NoDup (map fst (cCbs s2)) /\
  forall m, (forall c, In c (cCbs (unregisterCb m s2)) <-> In c (cCbs s2) /\ fst c <> m) /\ cCbs (unregisterCb n s2) = cCbs s1.
Proof.
  intros ops s t N s1. assert (N1 : numbered s1).
  { unfold s1. clear s1 t. revert s N. induction ops as [|o ops IH]; intros s N; [exact N|]. cbn [fold_left]. apply IH, numbered_step, N. }
  pose proof (numbered_step s1 (OReg t) N1) as [N2 _]. cbn [cfgStep registerCb snd] in N2. unfold registerCb. cbn [cCbs].
  assert (NI : ~ In (cReg s1 + 1) (map fst (cCbs s1))).
  { intros I. apply in_map_iff in I as (c & E & I). destruct N1 as [_ F]. rewrite Forall_forall in F. specialize (F c I). lia. }
  split; [reflexivity|]. split; [exact NI|]. split; [exact N2|]. intros m. split.
  - intros c. unfold unregisterCb. cbn [cCbs]. rewrite filter_In, Bool.negb_true_iff, Z.eqb_neq. reflexivity.
  - unfold unregisterCb. cbn [cCbs]. rewrite filter_app. cbn [filter fst]. rewrite Z.eqb_refl. cbn [negb]. rewrite app_nil_r.
    clear - NI. induction (cCbs s1) as [|c l IH]; [reflexivity|]. cbn [map In] in NI. cbn [filter]. destruct (Z.eqb_spec (fst c) (cReg s1 + 1)); [tauto|]. cbn [negb]. f_equal. apply IH. tauto.
Qed.
Print Assumptions C29_callbacks.

Example ex_callbacks : let s0 := {| cHash := repeat 65 20; cExt := externalDefault; cDirty := false; cFile := None; cCbs := []; cReg := 1; cCalled := [] |} in
  numbered s0 /\ cCalled (fold_left cfgStep [OReg VDht; OReg VDht; ODht false; OUnreg 2; ODht true; OReg VDht; ODht false] s0) = [2; 3; 3; 3; 4].
Proof. split; [split; constructor|]. vm_compute. reflexivity. Qed.
