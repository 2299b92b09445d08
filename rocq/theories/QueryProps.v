(** C36: DHT lookups. *)
From Coq Require Import Permutation.
From Verif Require Import Base BaseLemmas NodeModel NodeSpec NodeProofs TableModel QueryModel QuerySpec QueryProofs.

(** The nodes learned from replies are asked at most once each: the ids of the
    nodes queried after the start are pairwise different. *)
Theorem C36_asked_once own peers target nodes es q out f :
  lookup own peers target nodes es = (q, out, f) -> NoDup (map key out).
Proof.
  unfold lookup. destruct (start peers target nodes) as [q0 f0] eqn:St.
  destruct (run own es q0) as [[q1 o1] f1] eqn:R. intros H. inversion H; subst. clear H.
  destruct (start_ok _ _ _ _ _ St) as (I & U & _).
  destruct (run_inv own _ es q0 q out f1 (Z.le_max_l _ _) I R) as ((N & _) & E & _).
  rewrite U in E. cbn [app] in E. rewrite E, map_app in N. apply NoDup_app_elim in N. apply N.
Qed.
Print Assumptions C36_asked_once.

(** At most 32 candidates are kept, their ids differ, and none was asked. *)
Theorem C36_candidates own peers target nodes es q out f :
  lookup own peers target nodes es = (q, out, f) ->
  zlen (q_received q) <= 32 /\ NoDup (map key (q_received q)) /\
  (forall n, In n (q_received q) -> ~ In (key n) (map key out)).
Proof.
  unfold lookup. destruct (start peers target nodes) as [q0 f0] eqn:St.
  destruct (run own es q0) as [[q1 o1] f1] eqn:R. intros H. inversion H; subst. clear H.
  destruct (start_ok _ _ _ _ _ St) as (I & U & _).
  destruct (run_inv own _ es q0 q out f1 (Z.le_max_l _ _) I R) as ((N & L & _) & E & _).
  rewrite U in E. cbn [app] in E. rewrite E, map_app in N. apply NoDup_app_elim in N.
  destruct N as (_ & N2 & N3). refine (conj L (conj N2 _)).
  intros n Hn X. apply (N3 _ X). apply in_map. exact Hn.
Qed.
Print Assumptions C36_candidates.

(** The list of requests never grows beyond what the table supplied or five. *)
Theorem C36_outstanding own peers target nodes es q out f :
  lookup own peers target nodes es = (q, out, f) ->
  zlen (q_requests q) <= Z.max 5 (zlen nodes).
Proof.
  unfold lookup. destruct (start peers target nodes) as [q0 f0] eqn:St.
  destruct (run own es q0) as [[q1 o1] f1] eqn:R. intros H. inversion H; subst. clear H.
  destruct (start_ok _ _ _ _ _ St) as (I & _).
  destruct (run_inv own _ es q0 q out f1 (Z.le_max_l _ _) I R) as ((_ & _ & L & _) & _). exact L.
Qed.
Print Assumptions C36_outstanding.

Lemma sendLoop_idle fuel q : q_max q = 0 -> sendLoop fuel q = (q, []).
Proof.
  intros M. destruct fuel as [|f]; [reflexivity|]. cbn [sendLoop]. destruct (q_received q) as [|n r]; [reflexivity|].
  destruct (Z.ltb_spec (zlen (q_requests q)) (q_max q)); [|reflexivity]. pose proof (zlen_nonneg (q_requests q)). lia.
Qed.

Lemma step_idle own e q q' out f : q_max q = 0 -> step own e q = (q', out, f) -> q_max q' = 0 /\ out = [].
Proof.
  intros M S. destruct e as [h body|]; cbn [step] in S; [|inversion S; subst; auto].
  destruct (List.find _ (q_pending q)) as [p|]; [|inversion S; subst; auto]. unfold onResponse in S. cbn zeta in S.
  match type of S with context [sendLoop ?n ?x] => rewrite (sendLoop_idle n x) in S end.
  2:{ destruct body as [r|]; [|exact M]. destruct (_ && _); exact M. }
  match type of S with context [if ?c then ?a else ?b] => match type of a with (query * list nodeInfo)%type => change b with a in S end end.
  destruct (negb (q_peers _) || _); destruct body as [r|]; cbn in S; repeat match type of S with context [if ?c then _ else _] => destruct c end; inversion S; subst; auto.
Qed.

(** After a lookup is stopped nothing more is asked, whatever still arrives. *)
Theorem C36_stopped own q es q' out f : run own es (stop q) = (q', out, f) -> out = [].
Proof.
  assert (M : q_max (stop q) = 0) by reflexivity. revert M. generalize (stop q). clear q. intros q. revert q q' out f.
  induction es as [|e es IH]; intros q q' out f M R; cbn [run] in R; [now inversion R|].
  destruct (step own e q) as [[q1 o1] f1] eqn:S. destruct (run own es q1) as [[q2 o2] f2] eqn:R2. destruct (step_idle own e q q1 o1 f1 M S) as [M1 ->].
  inversion R; subst. exact (IH q1 _ _ _ M1 R2).
Qed.
Print Assumptions C36_stopped.

(** A candidate is only given up for a strictly closer one. *)
Theorem C36_replaced own used mn target to n m :
  id_ok target -> id_ok (id n) -> Forall (fun x => id_ok (id x)) to ->
  let to' := mergeOne own used MaxCachedNodes mn target to n in
  In m to -> ~ In m to' ->
  In n to' /\ xor_dist (id n) target < xor_dist (id m) target.
Proof.
  intros T N F. unfold mergeOne.
  destruct (hasNode to n) eqn:E1; [cbv zeta; contradiction|].
  destruct (hasNode used n); [cbv zeta; contradiction|].
  destruct (negb (isValidNode own (id n))); [cbv zeta; contradiction|].
  destruct (_ || _); [|cbv zeta; contradiction].
  destruct (zlen to <? MaxCachedNodes).
  { cbv zeta. intros H1 H2. exfalso. apply H2. apply in_or_app. left. exact H1. }
  destruct (worst target (distance (id n) target) to 0 None 0) as [i|] eqn:W; [|cbv zeta; contradiction].
  apply worst_ok in W; [|lia]. destruct W as [W|(k & m' & W1 & -> & W3 & W4)]; [discriminate|].
  cbn [Nat.add]. cbv zeta. intros H1 H2.
  assert (Hk : (k < length to)%nat) by (apply nth_error_Some; rewrite W1; discriminate).
  apply (In_nth to m n) in H1. destruct H1 as (j & J1 & J2).
  destruct (Nat.eq_dec j k) as [->|Hj].
  2:{ exfalso. apply H2. rewrite <- J2. rewrite <- (nth_upd_other j k n to n) by congruence.
      apply nth_In. rewrite upd_length. exact J1. }
  assert (m = m') as ->.
  { rewrite (nth_error_nth to k n W1) in J2. congruence. }
  assert (Hm : In m' to) by (apply nth_error_In with k; exact W1).
  rewrite Forall_forall in F. specialize (F m' Hm).
  split.
  - assert (X : nth k (upd k n to) n = n) by (apply nth_upd_same; exact Hk).
    rewrite <- X at 1. apply nth_In. rewrite upd_length. exact Hk.
  - unfold closerToNodeThan in W3.
    destruct (idLength (distance (id m') target) =? 0) eqn:Z0; [apply Z.eqb_eq in Z0; lia|]. cbn [negb] in W3.
    fold (idLess (distance (id m') target) (distance (id n) target)) in W3.
    rewrite idLess_value in W3 by (apply distance_ok; assumption).
    rewrite !distance_value in W3 by assumption. apply Z.ltb_ge in W3.
    destruct (Z.eq_dec (xor_dist (id n) target) (xor_dist (id m') target)) as [E|E]; [|lia].
    exfalso. apply hasNode_not in E1. apply E1. apply in_map_iff. exists m'. split; [|exact Hm].
    unfold key. f_equal. unfold xor_dist in E.
    assert (V : id_value (id n) = id_value (id m')).
    { apply (f_equal (fun v => Z.lxor v (id_value target))) in E.
      rewrite !Z.lxor_assoc, Z.lxor_nilpotent, !Z.lxor_0_r in E. exact E. }
    unfold id_value in V. destruct N as (N1 & N2). destruct F as (F1 & F2).
    rewrite <- (be_unbe (id n)), <- (be_unbe (id m')) by assumption. rewrite V, N1, F1. reflexivity.
Qed.
Print Assumptions C36_replaced.

(** As long as every reply carries the transaction id of its request, a peer
    lookup reports its end once when its last callback is gone, and not before. *)
Theorem C36_end_partial own target nodes es q out f :
  proper own es (fst (start true target nodes)) ->
  lookup own true target nodes es = (q, out, f) ->
  f = match q_pending q with [] => 1 | _ => 0 end /\
  length (q_requests q) = length (q_pending q).
Proof.
  unfold lookup. destruct (start true target nodes) as [q0 f0] eqn:St. cbn [fst].
  destruct (run own es q0) as [[q1 o1] f1] eqn:R. intros P H. inversion H; subst. clear H.
  destruct (start_ok _ _ _ _ _ St) as (I & U & _ & Pe & RP & L & F0).
  assert (S0 : in_step q0) by (split; [exact Pe|rewrite RP; reflexivity]).
  split.
  - destruct nodes as [|n nodes].
    + assert (E : q_pending q0 = []) by (destruct (q_pending q0); [reflexivity|discriminate]).
      rewrite run_done in R by assumption. inversion R; subst. rewrite E. reflexivity.
    + subst f0. rewrite (run_end own (Z.max 5 (zlen (n :: nodes))) es q0 q out f1); auto; [lia|].
      destruct (q_pending q0); [discriminate|discriminate].
  - clear F0 L U RP St f0 Pe.
    assert (G : forall es q0 o1 f1, q_inv (Z.max 5 (zlen nodes)) q0 -> in_step q0 -> proper own es q0 ->
                  run own es q0 = (q, o1, f1) -> in_step q).
    { clear. induction es as [|e es IH]; intros q0 o1 f1 I S0 P R; cbn [run proper] in *.
      - inversion R; subst. exact S0.
      - destruct P as (P1 & P2).
        destruct (step own e q0) as [[q2 o2] f2] eqn:St. destruct (run own es q2) as [[q3 o3] f3] eqn:R3.
        inversion R; subst. cbn [fst] in P2.
        destruct (step_ok _ _ _ _ _ _ _ (Z.le_max_l _ _) I St) as (A & _).
        destruct (step_in_step own e q0 q2 o2 f2 _ (Z.le_max_l _ _) I S0 P1 St) as (B & _).
        apply (IH q2 o3 f3 A B P2 R3). }
    destruct (G es q0 out f1 I S0 P R) as (_ & X). apply Permutation_length in X.
    rewrite !map_length in X. exact X.
Qed.
Print Assumptions C36_end_partial.

(** Test data: nodes by their last byte. *)
Definition exId (k : Z) : list Z := repeat 7 19 ++ [k].
Definition exNode (k : Z) : nodeInfo := {| id := exId k; addrBytes := [10; 0; 0; k]; port := 6881; ipv6 := false |}.
Definition exReply (k t : Z) (ns : list Z) : response :=
  {| r_trans := t; r_id := exId k; r_nodes := map exNode ns; r_found := 0 |}.
Definition exOwn : list Z := repeat 9 20.
Definition exTarget : list Z := repeat 7 20.

(** A proper lookup: the table's node 1 names nodes 2 and 3, both are asked, the
    first answers with node 2 again, the second times out. *)
Example C36_example :
  let es := [Reply 0 (Some (exReply 1 100 [2; 3])); Reply 1 (Some (exReply 2 200 [3; 2])); Reply 2 None] in
  proper exOwn es (fst (start true exTarget [exNode 1])) /\
  let '(q, out, f) := lookup exOwn true exTarget [exNode 1] es in
  map (fun n => nth 19 (id n) 0) out = [2; 3] /\ q_pending q = [] /\ f = 1.
Proof.
  split.
  - cbn [proper]. repeat split; vm_compute; intros p H; repeat (destruct H as [<-|H]); try reflexivity; try contradiction;
      intros X; discriminate.
  - vm_compute. auto.
Qed.

(** A datagram with a wrong transaction id removes the request from the list
    although its callback stays: the end is reported while a request is
    outstanding, and a second time when that one times out. *)
Theorem C36_end_refuted : exists own target nodes es,
  let '(q, out, f) := lookup own true target nodes es in
  (q_pending q <> [] /\ f = 1) /\
  let '(q', out', f') := lookup own true target nodes (es ++ [Reply 0 None]) in f' = 2.
Proof.
  exists exOwn, exTarget, [exNode 1], [Reply 0 (Some (exReply 1 55 []))].
  vm_compute. repeat split; congruence.
Qed.
Print Assumptions C36_end_refuted.

(** For the same reason the number of requests really outstanding is not
    bounded by five: eight nodes wait for an answer of a lookup that started with one. *)
Theorem C36_outstanding_refuted : exists own target nodes es,
  let '(q, out, f) := lookup own true target nodes es in
  length nodes = 1%nat /\ length (q_pending q) = 8%nat /\ q_requests q <> [].
Proof.
  exists exOwn, exTarget, [exNode 1],
    [Reply 0 (Some (exReply 1 100 [2; 3; 4; 5; 6; 8; 9; 10]));
     Reply 1 (Some (exReply 2 1 [])); Reply 2 (Some (exReply 2 1 [])); Reply 3 (Some (exReply 2 1 []))].
  vm_compute. repeat split; congruence.
Qed.
Print Assumptions C36_outstanding_refuted.

(** Such a request also survives stopping the lookup; its late answer is read but nobody is asked. *)
Example C36_stopped_example :
  let '(q, out, f) := lookup exOwn true exTarget [exNode 1] [Reply 0 (Some (exReply 1 55 [])); Stop; Reply 0 (Some (exReply 1 100 [2; 3]))] in
  out = [] /\ map (fun n => nth 19 (id n) 0) (q_received q) = [2; 3].
Proof. vm_compute. auto. Qed.

(** The table's own nodes are not noted as used: one of them is asked again when
    another names it. *)
Theorem C36_table_node_refuted : exists own target nodes es,
  proper own es (fst (start true target nodes)) /\
  let '(q, out, f) := lookup own true target nodes es in
  exists n, In n nodes /\ In n out.
Proof.
  exists exOwn, exTarget, [exNode 1; exNode 2], [Reply 0 (Some (exReply 1 100 [2]))].
  split.
  - cbn [proper]. repeat split; vm_compute; intros p H; repeat (destruct H as [<-|H]); try reflexivity; try contradiction;
      intros X; discriminate.
  - vm_compute. eexists. split; [right; left; reflexivity|left; reflexivity].
Qed.
Print Assumptions C36_table_node_refuted.

(** A full candidate list gives up its farthest node for a closer one. *)
Example C36_replaced_example :
  let to := map exNode (map (fun k => 32 + Z.of_nat k) (seq 0 32)) in
  let to' := mergeOne exOwn [] MaxCachedNodes 160 exTarget to (exNode 1) in
  zlen to = 32 /\ exists m, In m to /\ existsb (fun x => idEq (id x) (id m)) to' = false.
Proof.
  vm_compute. split; [reflexivity|].
  eexists. split; [left; reflexivity|reflexivity].
Qed.
