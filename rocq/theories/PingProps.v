(** C88: Pinging DHT nodes. *)
From Coq Require Import Permutation.
From Verif Require Import Base BaseLemmas AddrModel NodeModel TableModel TableSpec BencodeModel DhtMsgModel PingModel.
From Coq Require Import String. From Coq Require Import List. Import ListNotations.
Local Close Scope string_scope.
Local Open Scope Z_scope.

Record ginv (nodes : list nodeInfo) (g : pings) : Prop := {
  gi_order : exists later, pgSent g = firstn 5 nodes ++ later /\ skipn 5 nodes = pgLeft g ++ rev later;
  gi_handles : NoDup (map piH (pgPending g));
  gi_next : forall p, In p (pgPending g) -> (piH p < pgNext g)%nat;
  gi_five : (List.length (pgPending g) <= 5)%nat;
  gi_busy : pgLeft g <> [] -> List.length (pgPending g) = 5%nat;
  gi_sent : forall p, In p (pgPending g) -> In (piNode p) (pgSent g) /\ piUnknown p = false }.

Lemma send_all l : forall g, NoDup (map piH (pgPending g)) -> (forall p, In p (pgPending g) -> (piH p < pgNext g)%nat) -> (forall p, In p (pgPending g) -> In (piNode p) (pgSent g) /\ piUnknown p = false) ->
  let g' := fold_left (fun g n => sendPing n false g) l g in
  pgLeft g' = pgLeft g /\ pgTable g' = pgTable g /\ pgSent g' = pgSent g ++ l /\ List.length (pgPending g') = (List.length (pgPending g) + List.length l)%nat /\
  NoDup (map piH (pgPending g')) /\ (forall p, In p (pgPending g') -> (piH p < pgNext g')%nat) /\ (forall p, In p (pgPending g') -> In (piNode p) (pgSent g') /\ piUnknown p = false).
Proof.
  induction l as [|n l IH]; intros g N L S; cbn [fold_left]; [rewrite app_nil_r; cbn [List.length]; rewrite Nat.add_0_r; auto 9|].
  destruct (IH (sendPing n false g)) as (A & B & C & D & E).
  - cbn. rewrite map_app. cbn [map piH]. apply NoDup_Add with (a := pgNext g) (l := map piH (pgPending g)); [rewrite <- (app_nil_r (map piH (pgPending g))) at 1; apply Add_app|]. split; [exact N|]. intros Q. apply in_map_iff in Q as (p & Q & Ip). specialize (L p Ip). lia.
  - cbn. intros p Ip. apply in_app_or in Ip as [Ip|[<-|[]]]; [specialize (L p Ip); lia|cbn; lia].
  - cbn. intros p Ip. apply in_app_or in Ip as [Ip|[<-|[]]]; [destruct (S p Ip); split; [apply in_or_app; now left|assumption]|cbn; split; [apply in_or_app; right; now left|reflexivity]].
  - cbn zeta. split; [exact A|]. split; [exact B|]. split; [rewrite C; cbn; rewrite <- app_assoc; reflexivity|]. split; [rewrite D; cbn; rewrite app_length; cbn [List.length]; lia|]. exact E.
Qed.

Lemma start_inv nodes t tr : ginv nodes (startNodes nodes t tr) /\ pgTable (startNodes nodes t tr) = t.
Proof.
  unfold startNodes. set (c := Nat.min 5 (List.length nodes)). set (g0 := {| pgPending := []; pgLeft := skipn c nodes; pgTable := t; pgTrans := tr; pgNext := 0; pgSent := [] |}).
  assert (Ec : firstn c nodes = firstn 5 nodes /\ skipn c nodes = skipn 5 nodes).
  { unfold c. destruct (Nat.le_gt_cases 5 (List.length nodes)) as [H|H]; [rewrite Nat.min_l by lia; auto|]. rewrite Nat.min_r by lia. rewrite firstn_all, skipn_all, firstn_all2, skipn_all2 by lia. auto. }
  destruct Ec as [E1 E2]. destruct (send_all (firstn c nodes) g0) as (A & B & C & D & E & F & G); [constructor|intros p []|intros p []|].
  assert (Lc : List.length (firstn c nodes) = c) by (rewrite firstn_length; unfold c; lia). change (List.length (pgPending g0)) with 0%nat in D; rewrite Nat.add_0_l, Lc in D.
  split; [|exact B]. split; try assumption.
  - exists []. rewrite C, A, E1. cbn. rewrite !app_nil_r. split; [reflexivity|]. symmetry. exact E2.
  - rewrite D. unfold c. lia.
  - rewrite A, D. change (pgLeft g0) with (skipn c nodes). intros Q. unfold c in *. clear - Q. destruct (Nat.le_gt_cases 5 (List.length nodes)) as [H|H]; [lia|]. exfalso. apply Q. apply skipn_all2. lia.
Qed.

Lemma gone l p : NoDup (map piH l) -> In p l -> List.length (filter (fun x => negb (Nat.eqb (piH x) (piH p))) l) = (List.length l - 1)%nat /\ NoDup (map piH (filter (fun x => negb (Nat.eqb (piH x) (piH p))) l)).
Proof.
  assert (Nd : forall f l, NoDup (map piH l) -> NoDup (map piH (filter f l))).
  { intros f k. induction k as [|x k IH]; intros N; [exact N|]. cbn [map] in N. apply NoDup_cons_iff in N as [Nx N]. cbn [filter]. destruct (f x); [|now apply IH]. cbn [map]. apply NoDup_cons_iff. split; [|now apply IH].
    intros Q. apply Nx. apply in_map_iff in Q as (y & Q & Iy). apply filter_In in Iy as [Iy _]. rewrite <- Q. now apply in_map. }
  intros N I. split; [|now apply Nd]. induction l as [|x l IH]; [destruct I|]. cbn [map] in N. apply NoDup_cons_iff in N as [Nx N]. cbn [filter]. destruct I as [->|I].
  - rewrite Nat.eqb_refl. cbn [negb List.length]. assert (K : filter (fun x => negb (Nat.eqb (piH x) (piH p))) l = l).
    { clear - Nx. induction l as [|y l IH]; [reflexivity|]. cbn [filter]. destruct (Nat.eqb_spec (piH y) (piH p)) as [Q|Q]; [exfalso; apply Nx; left; exact Q|]. cbn [negb]. f_equal. apply IH. intros Q'. apply Nx. now right. }
    rewrite K. lia.
  - destruct (Nat.eqb_spec (piH x) (piH p)) as [Q|Q]; [exfalso; apply Nx; rewrite Q; now apply in_map|]. cbn [negb List.length]. rewrite (IH N I). destruct l; [destruct I|cbn [List.length]; lia].
Qed.

Lemma step_inv own nodes g e : ginv nodes g -> ginv nodes (pstep own g e).
Proof.
  intros G. destruct e as [h body now]. cbn [pstep]. destruct (List.find _ (pgPending g)) as [p|] eqn:F; [|exact G]. apply find_some in F as [Ip Hp]. apply Nat.eqb_eq in Hp. subst h.
  destruct G as [(later & O1 & O2) N L V B S]. destruct (gone (pgPending g) p N Ip) as [Lg Ng]. set (rest := filter (fun x => negb (Nat.eqb (piH x) (piH p))) (pgPending g)) in *.
  assert (Ir : forall x, In x rest -> In x (pgPending g)) by (intros x Ix; apply filter_In in Ix as [Ix _]; exact Ix).
  assert (Lp : (0 < List.length (pgPending g))%nat) by (destruct (pgPending g); [destruct Ip|cbn; lia]).
  unfold onPing. fold rest. destruct (rev (pgLeft g)) as [|n l] eqn:R.
  - assert (El : pgLeft g = []) by (rewrite <- (rev_involutive (pgLeft g)), R; reflexivity). split; cbn [pgPending pgLeft pgTable pgTrans pgNext pgSent].
    + exists later. auto.
    + exact Ng.
    + intros x Ix. apply L. now apply Ir.
    + lia.
    + rewrite El. congruence.
    + intros x Ix. apply S. now apply Ir.
  - assert (El : pgLeft g = rev l ++ [n]) by (rewrite <- (rev_involutive (pgLeft g)), R; reflexivity).
    assert (B' := B ltac:(rewrite El; destruct (rev l); discriminate)). split; cbn [pgPending pgLeft pgTable pgTrans pgNext pgSent sendPing].
    + exists (later ++ [n]). rewrite O1, <- app_assoc, app_assoc. split; [rewrite <- app_assoc; reflexivity|]. rewrite O2, El, removelast_last, rev_app_distr. cbn [rev app]. rewrite <- app_assoc. reflexivity.
    + rewrite map_app. cbn [map piH]. apply NoDup_Add with (a := pgNext g) (l := map piH rest); [rewrite <- (app_nil_r (map piH rest)) at 1; apply Add_app|]. split; [exact Ng|]. intros Q. apply in_map_iff in Q as (x & Q & Ix). specialize (L x (Ir x Ix)). lia.
    + intros x Ix. apply in_app_or in Ix as [Ix|[<-|[]]]; [specialize (L x (Ir x Ix)); lia|cbn; lia].
    + rewrite app_length. cbn [List.length]. lia.
    + intros _. rewrite app_length. cbn [List.length]. lia.
    + intros x Ix. apply in_app_or in Ix as [Ix|[<-|[]]]; [destruct (S x (Ir x Ix)); split; [apply in_or_app; now left|assumption]|cbn; split; [apply in_or_app; right; now left|reflexivity]].
Qed.

Lemma prun_inv own nodes es : forall g, ginv nodes g -> ginv nodes (prun own g es).
Proof. induction es as [|e es IH]; intros g G; [exact G|]. cbn. apply IH. now apply step_inv. Qed.

Lemma reach own nodes t tr es : ginv nodes (prun own (startNodes nodes t tr) es).
Proof. apply prun_inv. apply start_inv. Qed.

(** The nodes are pinged in a fixed order, the first five and then the others from the last on, each once; at most five at a time. *)
Theorem C88_each_once : forall own nodes t tr es, let g := prun own (startNodes nodes t tr) es in
  (exists k, pgSent g = firstn k (firstn 5 nodes ++ rev (skipn 5 nodes))) /\ Permutation (pgSent g ++ pgLeft g) nodes /\ (List.length (pgPending g) <= 5)%nat.
Proof.
  intros own nodes t tr es g. destruct (reach own nodes t tr es) as [(later & O1 & O2) N L V B S]. fold g in O1, O2, V. split; [|split; [|exact V]].
  - exists (List.length (pgSent g)). rewrite O1, O2, rev_app_distr, rev_involutive, app_assoc. symmetry. rewrite <- (Nat.add_0_r (List.length (firstn 5 nodes ++ later))), firstn_app_2. cbn. now rewrite app_nil_r.
  - rewrite O1, <- app_assoc. transitivity (firstn 5 nodes ++ skipn 5 nodes); [|rewrite firstn_skipn; reflexivity]. apply Permutation_app_head. rewrite O2. transitivity (pgLeft g ++ later); [apply Permutation_app_comm|]. apply Permutation_app_head. apply Permutation_rev.
Qed.
Print Assumptions C88_each_once.

(** As long as one answer or timeout per ping comes, all get their turn: when no ping is under way every node was pinged. *)
Theorem C88_all : forall own nodes t tr es, let g := prun own (startNodes nodes t tr) es in pgPending g = [] -> Permutation (pgSent g) nodes.
Proof.
  intros own nodes t tr es g E. destruct (C88_each_once own nodes t tr es) as (_ & P & _). fold g in P. pose proof (gi_busy _ _ (reach own nodes t tr es)) as B. fold g in B. rewrite E in B.
  destruct (pgLeft g); [now rewrite app_nil_r in P|]. assert (X : n :: l <> []) by discriminate. specialize (B X). discriminate B.
Qed.
Print Assumptions C88_all.

(** ... and that takes exactly one of them per node. *)
Theorem C88_ends : forall own nodes t tr es, let g := prun own (startNodes nodes t tr) es in
  (forall p body now, In p (pgPending g) -> let g' := pstep own g (PAnswer (piH p) body now) in (List.length (pgLeft g') + List.length (pgPending g') + 1 = List.length (pgLeft g) + List.length (pgPending g))%nat).
Proof.
  intros own nodes t tr es g p body now Ip g'. pose proof (reach own nodes t tr es) as G. fold g in G. destruct G as [O N L V B S]. destruct (gone (pgPending g) p N Ip) as [Lg _].
  assert (Lp : (0 < List.length (pgPending g))%nat) by (destruct (pgPending g); [destruct Ip|cbn; lia]).
  unfold g'. cbn [pstep]. destruct (List.find (fun x => Nat.eqb (piH x) (piH p)) (pgPending g)) as [x|] eqn:F; [|pose proof (find_none _ _ F p Ip) as Q; cbn in Q; rewrite Nat.eqb_refl in Q; discriminate].
  apply find_some in F as [Ix Hx]. apply Nat.eqb_eq in Hx. unfold onPing. rewrite Hx. destruct (rev (pgLeft g)) as [|n l] eqn:R.
  - cbn. lia.
  - assert (El : pgLeft g = rev l ++ [n]) by (rewrite <- (rev_involutive (pgLeft g)), R; reflexivity). cbn. rewrite El, removelast_last, !app_length. cbn [List.length]. lia.
Qed.
Print Assumptions C88_ends.

Lemma one_handle l p q : NoDup (map piH l) -> In p l -> In q l -> piH p = piH q -> p = q.
Proof.
  induction l as [|x l IH]; intros N Ip Iq E; [destruct Ip|]. cbn [map] in N. apply NoDup_cons_iff in N as [Nx N].
  destruct Ip as [->|Ip], Iq as [->|Iq]; [reflexivity|exfalso; apply Nx; rewrite E; now apply in_map|exfalso; apply Nx; rewrite <- E; now apply in_map|now apply IH].
Qed.

(** What the end of a ping does to the table: a node that answered with the right number and its own id has responded, one that did
    not answer has failed. Both only for a node that was to be pinged. Missing: any other answer, see below. *)
Theorem C88_judged_partial : forall own nodes t tr es p now, let g := prun own (startNodes nodes t tr) es in In p (pgPending g) ->
  In (piNode p) nodes /\
  pgTable (pstep own g (PAnswer (piH p) None now)) = after_events own [Failed (piNode p) now] (pgTable g) /\
  (forall r, drTrans r = piTrans p -> drId r = Some (id (piNode p)) -> pgTable (pstep own g (PAnswer (piH p) (Some r) now)) = after_events own [Responded (piNode p) now] (pgTable g)).
Proof.
  intros own nodes t tr es p now g Ip. pose proof (reach own nodes t tr es) as G. fold g in G. destruct G as [O N L V B S].
  assert (Fx : List.find (fun x => Nat.eqb (piH x) (piH p)) (pgPending g) = Some p).
  { destruct (List.find (fun x => Nat.eqb (piH x) (piH p)) (pgPending g)) as [x|] eqn:F; [|pose proof (find_none _ _ F p Ip) as Q; cbn in Q; rewrite Nat.eqb_refl in Q; discriminate].
    apply find_some in F as [Ix Hx]. apply Nat.eqb_eq in Hx. f_equal. now apply (one_handle (pgPending g)). }
  destruct (S p Ip) as [Is Un]. split.
  - destruct (C88_each_once own nodes t tr es) as (_ & P & _). apply (Permutation_in _ P). apply in_or_app. now left.
  - assert (T : forall body, pgTable (pstep own g (PAnswer (piH p) body now)) = judge own (pgTable g) p body now).
    { intros body. cbn [pstep]. rewrite Fx. unfold onPing. destruct (rev (pgLeft g)); reflexivity. }
    split; [rewrite T; unfold judge; rewrite Un; reflexivity|]. intros r R1 R2. rewrite T. unfold judge. rewrite R1, R2, Z.eqb_refl, Un. unfold idEq. rewrite list_eqb_refl. reflexivity.
Qed.
Print Assumptions C88_judged_partial.

(** Any other packet from the node ends the ping and says nothing about the node: wrong number, wrong id, an error, garbage. *)
Theorem C88_unjudged_refuted : forall own nodes t tr es p now r, let g := prun own (startNodes nodes t tr) es in In p (pgPending g) ->
  (drTrans r <> piTrans p \/ match drId r with Some i => firstn 20 i <> firstn 20 (id (piNode p)) | None => firstn 20 (id (piNode p)) <> repeat 0 20 end) ->
  let g' := pstep own g (PAnswer (piH p) (Some r) now) in pgTable g' = pgTable g /\ ~ In (piH p) (map piH (pgPending g')).
Proof.
  intros own nodes t tr es p now r g Ip W g'. pose proof (reach own nodes t tr es) as G. fold g in G. destruct G as [O N L V B S]. destruct (S p Ip) as [_ Un].
  assert (Fx : List.find (fun x => Nat.eqb (piH x) (piH p)) (pgPending g) = Some p).
  { destruct (List.find (fun x => Nat.eqb (piH x) (piH p)) (pgPending g)) as [x|] eqn:F; [|pose proof (find_none _ _ F p Ip) as Q; cbn in Q; rewrite Nat.eqb_refl in Q; discriminate].
    apply find_some in F as [Ix Hx]. apply Nat.eqb_eq in Hx. f_equal. now apply (one_handle (pgPending g)). }
  assert (J : judge own (pgTable g) p (Some r) now = pgTable g).
  { unfold judge. rewrite Un. destruct (Z.eqb_spec (drTrans r) (piTrans p)) as [E|E]; [|reflexivity]. destruct W as [W|W]; [congruence|]. cbn [andb]. unfold idEq. destruct (drId r) as [i|];
    (match goal with |- (if ?b then _ else _) = _ => destruct b eqn:Q; [|reflexivity] end); apply list_eqb_spec in Q; exfalso; [apply W; now rewrite Q|apply W; rewrite Q; reflexivity]. }
  assert (R : ~ In (piH p) (map piH (filter (fun x => negb (Nat.eqb (piH x) (piH p))) (pgPending g)))).
  { intros Q. apply in_map_iff in Q as (x & Q & Ix). apply filter_In in Ix as [_ Ix]. rewrite Q, Nat.eqb_refl in Ix. discriminate. }
  unfold g'. cbn [pstep]. rewrite Fx. unfold onPing. destruct (rev (pgLeft g)); cbn [pgPending pgLeft pgTable pgTrans pgNext pgSent sendPing]; (split; [exact J|]); [exact R|].
  rewrite map_app. intros Q. apply in_app_or in Q as [Q|[Q|[]]]; [now apply R|]. cbn in Q. specialize (L p Ip). lia.
Qed.
Print Assumptions C88_unjudged_refuted.

(** ** Examples *)

Definition pnode (b : Z) : nodeInfo := {| id := repeat b 20; addrBytes := [10; 0; 0; b] ++ repeat 0 12; TableModel.port := 443; ipv6 := false |}.
Definition pong (b tr : Z) : option dresponse := Some {| drResult := 0; drTrans := tr; drId := Some (repeat b 20); drToken := []; drNodes := []; drValues := [] |}.

(** Non-vacuity: seven nodes; the second and the first answer, the third does not. *)
Example C88_example : let g := prun (repeat 255 20) (startNodes (map pnode [1; 2; 3; 4; 5; 6; 7]) emptyTable 0) [PAnswer 1 (pong 2 200) 50; PAnswer 0 (pong 1 100) 51; PAnswer 2 None 52] in
  map (fun n => nth 0 (id n) 0) (pgSent g) = [1; 2; 3; 4; 5; 7; 6] /\ map (fun p => (piH p, piTrans p)) (pgPending g) = [(3%nat, 400); (4%nat, 500); (5%nat, 600); (6%nat, 700)] /\
  pgTable g = after_events (repeat 255 20) [Responded (pnode 2) 50; Responded (pnode 1) 51; Failed (pnode 3) 52] emptyTable.
Proof. split; [vm_compute; reflexivity|]. split; vm_compute; reflexivity. Qed.

(** Finding: the ping of an address whose node is not known believes an answer that names no id: a node of id 0 is put into the table. *)
Theorem C88_no_id_refuted : let own := repeat 255 20 in let msg := lit "d1:rde1:t2:" ++ [100; 0] ++ lit "1:y1:re" in
  exists r, parseResponse 60 (msg ++ [0]) (zlen msg) (repeat 0 16) DPing = Val r /\ isValidNode own (repeat 0 20) = false /\
  let g := prun own (startAddr ([10; 0; 0; 9] ++ repeat 0 12) 6881 false emptyTable 0) [PAnswer 0 (Some r) 50] in has_id (pgTable g) (repeat 0 20).
Proof.
  eexists. split; [vm_compute; reflexivity|]. split; [vm_compute; reflexivity|]. cbv zeta.
  exists {| info := {| id := repeat 0 20; addrBytes := [10; 0; 0; 9] ++ repeat 0 12; TableModel.port := 6881; ipv6 := false |}; lastupdate := 50; active := true |}. split; [|vm_compute; reflexivity].
  exists 159%nat. split; [lia|]. vm_compute. now left.
Qed.
Print Assumptions C88_no_id_refuted.

(** An answer that names an id is believed: the node is known by it then. *)
Theorem C88_unknown : forall own bytes port v6 t tr r i now, drTrans r = QueryModel.nextTrans tr -> drId r = Some i ->
  pgTable (prun own (startAddr bytes port v6 t tr) [PAnswer 0 (Some r) now]) = after_events own [Responded {| id := i; addrBytes := bytes; TableModel.port := port; ipv6 := v6 |} now] t /\
  pgTable (prun own (startAddr bytes port v6 t tr) [PAnswer 0 None now]) = t.
Proof.
  intros own bytes port v6 t tr r i now R1 R2. cbn. split; [|reflexivity]. rewrite R1, R2, Z.eqb_refl. unfold idEq. cbn [id andb]. rewrite list_eqb_refl. reflexivity.
Qed.
Print Assumptions C88_unknown.
