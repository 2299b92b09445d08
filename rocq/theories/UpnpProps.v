(** C99: ports mapped on the routers *)
From Verif Require Import Base BaseLemmas UpnpModel UpnpSpec UpnpProofs UpnpProofs2.

(** Every request made has a reason in the state it was made in, and goes to a router that nothing else waits for. *)
Theorem C99_sent : forall s e, exists old new, uPending (ustep s e) = old ++ new /\ uSent (ustep s e) = uSent s ++ new /\ Forall (reason (ustep s e)) new /\
  (forall q, In q new -> Forall (fun o => qHost o <> qHost q) old).
Proof.
  intros s e. destruct (step_sent s e) as (old & new & A & B & C & D & E & F). exists old, new. split; [exact A|]. split; [exact B|]. split.
  - eapply Forall_impl; [|exact D]. intros q Q. eapply Reason_reason; eauto.
  - intros q Q. rewrite Forall_forall in D. destruct (D q Q) as [_ _ _ R]. subst old. apply Forall_forall. intros o O X. apply R. rewrite <- X. now apply in_map.
Qed.
Print Assumptions C99_sent.

(** At most one request to map and one to unmap wait for a router. *)
Theorem C99_pending : forall es g add, (length (waiting g add (uPending (urun es newUpnp))) <= 1)%nat.
Proof. intros es g add. apply (v_count _ (Inv_run es _ Inv_new)). Qed.
Print Assumptions C99_pending.

(** When no request is answered twice, a port is listed once for a router. *)
Theorem C99_once_partial : forall es, answered_once newUpnp es -> NoDup (map key (uMapped (urun es newUpnp))).
Proof. intros es A. apply (o_nodup _ (once_run es newUpnp Inv_new ltac:(split; [constructor|intros q []]) A)). Qed.
Print Assumptions C99_once_partial.

(** Finding: a router that answers twice is listed twice with the port, and the answer to a request to unmap takes away one of them: the port is unmapped again. *)
Definition twiceRouter : device := {| vGateway := [49]; vClient := [50]; vPort := 5000 |}.
Theorem C99_twice_refuted : exists es, map key (uMapped (urun es newUpnp)) = [([49], 6881, Tcp); ([49], 6881, Tcp)] /\
  uPending (urun (es ++ [UClosed 0; UUnmap 6881 Tcp; UAnswer 1 true; UClosed 1]) newUpnp) =
    [{| qId := 2; qAdd := false; qHost := [49]; qGwPort := 5000; qClient := []; qPort := 6881; qType := Tcp; qAnswered := false |}].
Proof. exists [UMap 6881 Tcp; UDevice twiceRouter; UAnswer 0 true; UAnswer 0 true]. vm_compute. auto. Qed.
Print Assumptions C99_twice_refuted.

(** One router, nothing waiting: the ports mapped are those wanted. Missing: the same with two routers ([C99_two_routers_refuted]). *)
Theorem C99_settled_partial : forall es g, let s := urun es newUpnp in uActive s = true -> uDevices s <> [] -> one_gateway g s -> uPending s = [] ->
  forall g' p t, is_mapped s g' p t <-> g' = g /\ wanted s p t.
Proof.
  intros es g s A D G P g' p t. destruct (Settled_run es newUpnp ltac:(intros ? ? X; now destruct X) g A D G P) as (S1 & S2). split.
  - intros (m & M1 & <- & <- & <-). now apply S2.
  - intros (-> & W). now apply S1.
Qed.
Print Assumptions C99_settled_partial.

(** One router that serves every request: after some requests it has exactly the ports wanted, and nothing waits. Missing: a router that refuses ([C99_retry_refuted]). *)
Theorem C99_served_partial : forall es g, let s := urun es newUpnp in uActive s = true -> uDevices s <> [] -> one_gateway g s ->
  exists k, uPending (serves k s) = [] /\ forall p t, is_mapped (serves k s) g p t <-> wanted s p t.
Proof.
  intros es g s A D G. assert (O : One g s) by (split; auto; apply Inv_run, Inv_new). destruct (served_ends g s O) as (k & P & OK). exists k. split; [exact P|].
  destruct (serves_run k s) as (es2 & E & F). intros p t.
  assert (M : wanted (serves k s) p t <-> wanted s p t) by (unfold wanted; rewrite E, served_mapping by exact F; tauto). rewrite <- M.
  assert (R : serves k s = urun (es ++ es2) newUpnp) by (rewrite urun_app; exact E). rewrite R in *.
  rewrite (C99_settled_partial (es ++ es2) g (n_active _ _ OK) (n_dev _ _ OK) (n_gate _ _ OK) P g p t). tauto.
Qed.
Print Assumptions C99_served_partial.

(** With one router, only a port it has mapped and that is not wanted is unmapped. *)
Theorem C99_unmap_partial : forall es e g, let s := urun es newUpnp in one_gateway g (ustep s e) -> exists new, uSent (ustep s e) = uSent s ++ new /\
  Forall (fun q => qHost q = g /\ (qAdd q = false -> is_mapped (ustep s e) g (qPort q) (qType q) /\ ~ wanted (ustep s e) (qPort q) (qType q))) new.
Proof.
  intros es e g s G. destruct (C99_sent s e) as (old & new & _ & S & R & _). exists new. split; [exact S|]. eapply Forall_impl; [|exact R]. intros q ((v & V1 & V2 & _) & W).
  unfold one_gateway in G. rewrite Forall_forall in G. assert (HG : qHost q = g) by (rewrite <- V2; now apply G). split; [exact HG|]. intros F. rewrite F in W. destruct W as (m & M1 & M2 & M3 & M4).
  assert (MG : mGateway m = g). { pose proof (v_gates _ (Inv_step _ e (Inv_run es _ Inv_new))) as V. fold s in V. rewrite Forall_forall in V. pose proof (V m M1) as X. cbv beta in X. apply in_map_iff in X. destruct X as (d & D1 & D2). rewrite <- D1. now apply G. }
  split; [exists m; auto|]. intros X. apply M4. split; [congruence|exact X].
Qed.
Print Assumptions C99_unmap_partial.

(** Two routers *)
Definition routerA : device := {| vGateway := [1]; vClient := [3]; vPort := 80 |}.
Definition routerB : device := {| vGateway := [2]; vClient := [3]; vPort := 80 |}.

(** A request without the number of its stream *)
Definition asks (q : request) : bool * list Z * Z * ptype := (qAdd q, qHost q, qPort q, qType q).

(** Finding: with two routers that do all they are asked, a port that is wanted is mapped and unmapped on the second at once. When it did both all is as before,
    but for the numbers of the streams, and both are asked again. *)
Theorem C99_two_routers_refuted : exists es round, let s := urun es newUpnp in let s' := urun round s in
  Forall (fun e => forall id b, e = UAnswer id b -> b = true) (es ++ round) /\ round <> [] /\ uDevices s = [routerA; routerB] /\ wanted s 6881 Tcp /\ ~ is_mapped s [2] 6881 Tcp /\
  map asks (uPending s) = [(true, [2], 6881, Tcp); (false, [2], 6881, Tcp)] /\ map asks (uPending s') = map asks (uPending s) /\ length (uSent s') = (length (uSent s) + 2)%nat /\
  (uMapping s', uDevices s', uMapped s', uActive s') = (uMapping s, uDevices s, uMapped s, uActive s).
Proof.
  exists [UMap 6881 Tcp; UDevice routerA; UDevice routerB; UAnswer 0 true; UClosed 0], [UAnswer 1 true; UAnswer 2 true; UClosed 1; UClosed 2]. cbv zeta. split.
  - repeat apply Forall_cons; try apply Forall_nil; intros id b X; congruence.
  - split; [discriminate|]. split; [reflexivity|]. split; [now left|]. split; [|vm_compute; auto]. intros (m & M & X & _). vm_compute in M. destruct M as [<-|[]]. discriminate X.
Qed.
Print Assumptions C99_two_routers_refuted.

(** The state in which a router is asked for its only port *)
Definition refusing (v : device) (p : Z) (t : ptype) (n : Z) (sent : list request) : upnp :=
  {| uMapping := [{| wPort := p; wType := t |}]; uDevices := [v]; uMapped := [];
     uPending := [{| qId := n; qAdd := true; qHost := vGateway v; qGwPort := vPort v; qClient := vClient v; qPort := p; qType := t; qAnswered := false |}]; uActive := true; uNext := n + 1; uSent := sent |}.

Lemma refusing_round v p t n sent : urun [UAnswer n false; UClosed n] (refusing v p t n sent) =
  refusing v p t (n + 1) (sent ++ [{| qId := n + 1; qAdd := true; qHost := vGateway v; qGwPort := vPort v; qClient := vClient v; qPort := p; qType := t; qAnswered := false |}]).
Proof.
  unfold urun. cbn [fold_left ustep]. unfold answered. cbn [refusing uPending find qId]. rewrite Z.eqb_refl. cbn [negb]. unfold markAnswered. cbn [map qId setPending]. rewrite Z.eqb_refl.
  unfold closed. cbn [uPending existsb qId erasePending setPending uActive orb]. rewrite Z.eqb_refl. reflexivity.
Qed.

(** Finding: a router that refuses is asked the same again, at once, as often as it refuses. *)
Theorem C99_retry_refuted : forall v p t k, exists es, let s := urun es newUpnp in (length (uSent s) = k + 1)%nat /\ Forall (same_request v p t) (uSent s) /\
  length es = (2 + 2 * k)%nat /\ Forall (fun e => forall id b, e = UAnswer id b -> b = false) es.
Proof.
  intros v p t k.
  assert (B : exists es sent, urun es newUpnp = refusing v p t (Z.of_nat k) sent /\ (length sent = k + 1)%nat /\ Forall (same_request v p t) sent /\ length es = (2 + 2 * k)%nat /\ Forall (fun e => forall id b, e = UAnswer id b -> b = false) es).
  { induction k as [|j (es & sent & E & L & SR & N & F)].
    - exists [UMap p t; UDevice v]. eexists. split; [reflexivity|]. split; [reflexivity|]. split; [repeat constructor|]. split; [reflexivity|]. repeat apply Forall_cons; try apply Forall_nil; intros id b X; congruence.
    - eexists (es ++ _), _. rewrite urun_app, E, refusing_round. split; [|split; [|split; [|split]]].
      + replace (Z.of_nat j + 1) with (Z.of_nat (S j)) by lia. reflexivity.
      + rewrite app_length, L. cbn. lia.
      + apply Forall_app. split; [exact SR|]. repeat constructor.
      + rewrite app_length, N. cbn. lia.
      + apply Forall_app. split; [exact F|]. repeat apply Forall_cons; try apply Forall_nil; intros id b X; congruence. }
  destruct B as (es & sent & E & L & SR & N & F). exists es. cbv zeta. rewrite E. auto.
Qed.
Print Assumptions C99_retry_refuted.

(** Once the object is gone, answers and closed streams make no request. *)
Theorem C99_gone : forall s e, uActive s = false -> (exists id b, e = UAnswer id b) \/ (exists id, e = UClosed id) -> uSent (ustep s e) = uSent s /\ uActive (ustep s e) = false.
Proof.
  intros s e A [(id & b & ->)|(id & ->)]; cbn [ustep].
  - unfold answered. destruct (find _ _); [|auto]. cbn zeta. destruct (negb b); [auto|]. destruct (qAdd r); auto.
  - unfold closed. destruct (existsb _ _); [|auto]. cbn zeta. cbn [setPending uActive]. rewrite A. auto.
Qed.
Print Assumptions C99_gone.

(** A device found again and a port asked for again change nothing. *)
Theorem C99_again : forall s v p t, ustep (ustep s (UDevice v)) (UDevice v) = ustep s (UDevice v) /\ ustep (ustep s (UMap p t)) (UMap p t) = ustep s (UMap p t).
Proof.
  intros s v p t. cbn [ustep]. split.
  - assert (I : existsb (fun d => list_eqb (vClient d) (vClient v) && list_eqb (vGateway d) (vGateway v) && (vPort d =? vPort v)) (uDevices (deviceFound v s)) = true).
    { unfold deviceFound. match goal with |- context [if ?c then _ else _] => destruct c eqn:E end; [exact E|]. unfold refreshMapping. destruct (refreshFrom_ok (uDevices (setDevices (uDevices s ++ [v]) s)) (setDevices (uDevices s ++ [v]) s)) as (new & S). destruct S. rewrite t_devices. cbn [setDevices uDevices].
      rewrite existsb_app. cbn [existsb]. rewrite !list_eqb_refl, Z.eqb_refl. cbn [andb orb]. apply orb_true_r. }
    unfold deviceFound at 1. now rewrite I.
  - assert (I : existsb (wantEq p t) (uMapping (mapActiveAdapters p t s)) = true).
    { unfold mapActiveAdapters. match goal with |- context [if ?c then _ else _] => destruct c eqn:E end; [exact E|]. rewrite refresh_mapping. cbn [setMapping uMapping]. rewrite existsb_app. assert (X : wantEq p t {| wPort := p; wType := t |} = true) by now apply wantEq_spec. cbn [existsb]. rewrite X. apply orb_true_r. }
    unfold mapActiveAdapters at 1. now rewrite I.
Qed.
Print Assumptions C99_again.

(** What is wanted is what the last settings say: nothing when mapping is off, else the two ports and no others. *)
Theorem C99_settings : forall c es p t, let a := fold_left mstep es (startMapper c) in let d := last_cfg c es in
  wanted (aUpnp a) p t <-> cEnabled d = true /\ ((p = cTcp d /\ t = Tcp) \/ (p = cUdp d /\ t = Udp)).
Proof.
  intros c es p t.
  assert (K : forall es a c, Ports a -> aEnabled a = cEnabled c /\ aTcp a = cTcp c /\ aUdp a = cUdp c -> let a' := fold_left mstep es a in let d := last_cfg c es in Ports a' /\ aEnabled a' = cEnabled d /\ aTcp a' = cTcp d /\ aUdp a' = cUdp d).
  { clear. induction es as [|e es IH]; intros a c P F; [auto|]. cbn [fold_left last_cfg]. destruct e as [d|v|id b|id]; apply IH; try (now apply Ports_step); try exact F. repeat split. }
  destruct (K es (startMapper c) c (Ports_start c) ltac:(auto)) as (P & F1 & F2 & F3). cbv zeta. unfold wanted. rewrite (p_in _ P). unfold asked_ports. rewrite F1, F2, F3.
  split; intros (A & B); (split; [exact A|]); destruct B as [B|B]; [left; injection B; auto|right; injection B; auto|left; destruct B; now subst|right; destruct B; now subst].
Qed.
Print Assumptions C99_settings.

(** A router found, both ports mapped, the settings changed, served again; then turned off. *)
Definition exRouter : device := twiceRouter.
Definition exHistory : list uevent := [UMap 6881 Tcp; UMap 6882 Udp; UDevice exRouter; UAnswer 0 true; UClosed 0; UAnswer 1 true; UClosed 1; UUnmap 6881 Tcp; UMap 7000 Tcp].
Example C99_meets : let s := urun exHistory newUpnp in uActive s = true /\ uDevices s = [exRouter] /\ one_gateway [49] s /\ length (uPending s) = 1%nat /\ length (uSent s) = 3%nat /\
  answered_once newUpnp exHistory /\ uPending (serves 2 s) = [] /\ map key (uMapped (serves 2 s)) = [([49], 6882, Udp); ([49], 7000, Tcp)].
Proof. vm_compute. repeat split; repeat constructor; intros; reflexivity. Qed.

Example C99_settings_meets : let a := fold_left mstep [MUpnp exRouter; MSettings {| cEnabled := true; cTcp := 7000; cUdp := 6882 |}; MAnswer 0 true; MClose 0] (startMapper {| cEnabled := true; cTcp := 6881; cUdp := 6882 |}) in
  uMapping (aUpnp a) = [{| wPort := 6882; wType := Udp |}; {| wPort := 7000; wType := Tcp |}] /\ map qPort (uSent (aUpnp a)) = [6881; 6882; 6881].
Proof. vm_compute. auto. Qed.
