(** C33: the routing table survives a restart. *)
From Verif Require Import Base BaseLemmas Dec DecLemmas NodeModel NodeSpec NodeProps TableModel TableSpec TableSaveModel TableSaveProofs.

(** Every bucket has its nodes again, in order, if the text that ends a bucket does not occur in
    what is written of its nodes. *)
Theorem C33_round_trip_partial : forall t, length t = 160%nat -> Forall (fun b => Forall node_ok (nodes b)) t ->
  Forall (fun b => ~ exists x y, flat_map entry (nodes b) = x ++ nodesEnd ++ y) t ->
  exists t' c, load emptyTable (save t) = Loaded t' c /\ length t' = 160%nat /\
    (forall i, map info (nodes (nth i t' emptyBucket)) = map info (nodes (nth i t emptyBucket))) /\
    c = fold_right (fun b s => zlen (nodes b) + s) 0 t.
Proof.
  intros t L F C. exists (map reload t), (total_nodes t). assert (FC : Forall (fun b => Forall node_ok (nodes b) /\ clean b) t) by (rewrite Forall_forall in F, C |- *; intros b Hb; split; [now apply F|exact (C b Hb)]).
  split; [|split; [now rewrite map_length|split; [|reflexivity]]].
  - unfold load, save. change (firstn 10 (bucketsBegin ++ saveFrom 0 t ++ bucketsEnd)) with bucketsBegin. change (skipn 10 (bucketsBegin ++ saveFrom 0 t ++ bucketsEnd)) with (saveFrom 0 t ++ bucketsEnd). rewrite list_eqb_refl. cbn [negb].
    assert (Ln : length (bucketsBegin ++ saveFrom 0 t ++ bucketsEnd) = (length (bucketsBegin ++ saveFrom 0 t) + 11)%nat) by (rewrite app_assoc, app_length; reflexivity). rewrite Ln.
    destruct (Nat.ltb_spec (length (bucketsBegin ++ saveFrom 0 t) + 11) 11) as [Q|_]; [rewrite app_length in Q; cbn [bucketsBegin length] in Q; lia|].
    rewrite Nat.add_sub. rewrite (app_assoc bucketsBegin), skipn_app_exact, list_eqb_refl. cbn [negb].
    change emptyTable with ([] ++ repeat emptyBucket 160). rewrite <- L. change 0 with (Z.of_nat 0) at 1.
    rewrite (loadLoop_ok t _ 0 [] 0 FC); [cbn [app]; f_equal|reflexivity|lia|]. rewrite app_length. change (Z.of_nat 0) with 0. lia.
  - intros i. change emptyBucket with (reload emptyBucket) at 1. rewrite map_nth. unfold reload. cbn [nodes]. rewrite map_map. apply map_ext. reflexivity.
Qed.
Print Assumptions C33_round_trip_partial.

Definition nod (v : Z) : nodeInfo := {| id := id_of v; addrBytes := be 16 v; port := 6881; ipv6 := true |}.

Example C33_meets : let t := after_events (id_of 5) [Responded (nod 70000) 1; Responded (nod 12) 2; Responded (nod 70001) 3] emptyTable in
  exists t', load emptyTable (save t) = Loaded t' 3 /\ map info (nodes (nth 16 t' emptyBucket)) = [nod 70000; nod 70001].
Proof. eexists. vm_compute. auto. Qed.

(** Finding: a node whose id contains the text that ends a bucket makes loading the saved table
    throw, and the table is lost. *)
Theorem C33_delimiter_refuted : exists n, id_ok (id n) /\ load emptyTable (save (after_events (id_of 5) [Responded n 1] emptyTable)) = Throw.
Proof.
  exists {| id := nodesEnd ++ repeat 0 11; addrBytes := be 16 1; port := 6881; ipv6 := false |}. split; [|vm_compute; reflexivity].
  split; [reflexivity|]. apply bytes_okb_spec. reflexivity.
Qed.
Print Assumptions C33_delimiter_refuted.

(** Finding: a file that is not one written by [save] can index outside the buckets. *)
Theorem C33_foreign_file_refuted : load emptyTable (bucketsBegin ++ [50; 48; 48; 10] ++ nodesBegin ++ nodesEnd ++ bucketsEnd) = Undefined.
Proof. vm_compute. reflexivity. Qed.
Print Assumptions C33_foreign_file_refuted.
