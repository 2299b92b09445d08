From Verif Require Import Base BaseLemmas Dec DecLemmas NodeSpec TableModel TableSpec TableSaveModel.

Definition node_ok (n : node) : Prop :=
  length (id (info n)) = 20%nat /\ bytes_ok (id (info n)) /\ length (addrBytes (info n)) = 16%nat /\ bytes_ok (addrBytes (info n)) /\ 0 <= port (info n) < 65536.

(** What a node is after a restart. *)
Definition fresh (n : node) : node := {| info := info n; lastupdate := 0; active := true |}.
Definition reload (b : bucket) : bucket := {| nodes := map fresh (nodes b); cache := []; blast := 0 |}.

Lemma entry_length n : node_ok n -> length (entry n) = 39%nat.
Proof. intros (A & _ & B & _). unfold entry. rewrite !app_length, A, B, le_length. reflexivity. Qed.

Lemma slice_here {A} off n (a d r l : list A) : l = a ++ d ++ r -> length a = off -> length d = n -> slice off n l = d.
Proof. intros -> Ha Hd. now apply slice_at. Qed.

Lemma readEntries_ok ns : forall fuel, Forall node_ok ns -> (length (flat_map entry ns) <= fuel)%nat -> readEntries fuel (flat_map entry ns) = Some (map fresh ns).
Proof.
  induction ns as [|n ns IH]; intros fuel F L; [destruct fuel; reflexivity|]. inversion F as [|? ? F1 F2]; subst. cbn [flat_map] in *. rewrite app_length, entry_length in L by assumption.
  pose proof (entry_length n F1) as Le. destruct (entry n) as [|c e] eqn:E; [discriminate Le|]. destruct fuel as [|fuel]; [lia|]. change ((c :: e) ++ flat_map entry ns) with (c :: (e ++ flat_map entry ns)). cbn [readEntries].
  change (c :: (e ++ flat_map entry ns)) with ((c :: e) ++ flat_map entry ns). rewrite firstn_app_len, skipn_app_len by (symmetry; exact Le). rewrite Le. change (Nat.ltb 39 39) with false. cbn [orb].
  rewrite <- E. destruct F1 as (A1 & A2 & A3 & A4 & A5).
  assert (N38 : nth 38 (entry n) 0 = if ipv6 (info n) then 1 else 0).
  { unfold entry. rewrite app_nth2 by lia. rewrite app_nth2 by lia. rewrite app_nth2 by (rewrite le_length; lia). rewrite le_length, A1, A3. reflexivity. }
  rewrite N38. assert (Q : (1 <? (if ipv6 (info n) then 1 else 0)) = false) by (destruct (ipv6 (info n)); reflexivity). rewrite Q.
  rewrite IH by (try assumption; lia). cbn [option_map map]. do 2 f_equal. unfold fresh. f_equal.
  assert (S1 : slice 0 20 (entry n) = id (info n)) by (apply (slice_here 0 20 [] (id (info n)) (addrBytes (info n) ++ le 2 (port (info n)) ++ [if ipv6 (info n) then 1 else 0])); [reflexivity|reflexivity|assumption]).
  assert (S2 : slice 20 16 (entry n) = addrBytes (info n)) by (apply (slice_here 20 16 (id (info n)) (addrBytes (info n)) (le 2 (port (info n)) ++ [if ipv6 (info n) then 1 else 0])); [reflexivity|assumption|assumption]).
  assert (S3 : slice 36 2 (entry n) = le 2 (port (info n))) by (apply (slice_here 36 2 (id (info n) ++ addrBytes (info n)) (le 2 (port (info n))) [if ipv6 (info n) then 1 else 0]); [unfold entry; now rewrite <- app_assoc|rewrite app_length; lia|apply le_length]).
  rewrite S1, S2, S3, unle_le by (change (256 ^ Z.of_nat 2) with 65536; lia). destruct (info n) as [i a p v]. cbn. destruct v; reflexivity.
Qed.

Lemma lineOf_ok l s : ~ In 10 l -> lineOf (l ++ 10 :: s) = (l, s).
Proof.
  induction l as [|c l IH]; intros H; [reflexivity|]. cbn [app lineOf]. destruct (Z.eqb_spec c 10) as [->|N]; [exfalso; apply H; now left|]. rewrite IH; [reflexivity|]. intros Q. apply H. now right.
Qed.

Lemma toString_no10 n : 0 <= n -> ~ In 10 (toString n).
Proof.
  intros H Q. destruct (toString_ok n H) as (_ & A & _). rewrite forallb_forall in A. specialize (A 10 Q). discriminate.
Qed.

Lemma stoi_toString n : 0 <= n < 2147483648 -> stoi (toString n) = Some n.
Proof.
  intros H. unfold stoi. rewrite strtoz_toString by (try reflexivity; lia). destruct (toString_hd n ltac:(lia)) as (x & t & E & _). rewrite E. cbn [length].
  destruct (Z.leb_spec (-2147483648) n); [|lia]. destruct (Z.leb_spec n 2147483647); [reflexivity|lia].
Qed.

(** The delimiter shares no border with itself, so it can only start inside or at the end. *)
Lemma findText_ok e rest : ~ (exists a b, e = a ++ nodesEnd ++ b) -> findText nodesEnd (e ++ nodesEnd ++ rest) = Some (e, rest).
Proof.
  induction e as [|c e IH]; intros N.
  - cbn [app]. destruct rest; reflexivity.
  - cbn [app findText]. destruct (list_eqb (firstn (length nodesEnd) (c :: e ++ nodesEnd ++ rest)) nodesEnd) eqn:E.
    + exfalso. apply list_eqb_spec in E. change (length nodesEnd) with 9%nat in E. unfold nodesEnd in E.
      do 8 (destruct e as [|? e]; [cbn in E; discriminate E|cbn [firstn app] in E]). 
      injection E as -> -> -> -> -> -> -> -> ->. apply N. exists [], e. reflexivity.
    + change (firstn (length nodesEnd) (c :: e ++ nodesEnd ++ rest)) with (c :: firstn 8 (e ++ nodesEnd ++ rest)) in E. rewrite IH; [reflexivity|].
      intros (a & b & ->). apply N. exists (c :: a), b. reflexivity.
Qed.

Definition clean (b : bucket) : Prop := ~ exists a c, flat_map entry (nodes b) = a ++ nodesEnd ++ c.

Lemma saveFrom_short_or bs i : 0 <= i -> saveFrom i bs = [] \/ (0 < length (saveFrom i bs))%nat.
Proof. destruct (saveFrom i bs); [now left|right; cbn; lia]. Qed.

Definition total_nodes (bs : list bucket) : Z := fold_right (fun b s => zlen (nodes b) + s) 0 bs.

Lemma loadLoop_ok bs : forall fuel i pre c, Forall (fun b => Forall node_ok (nodes b) /\ clean b) bs -> length pre = i -> (i + length bs <= 160)%nat -> (length (saveFrom (Z.of_nat i) bs) < fuel)%nat ->
  loadLoop fuel (saveFrom (Z.of_nat i) bs ++ bucketsEnd) (pre ++ repeat emptyBucket (length bs)) c = Loaded (pre ++ map reload bs) (c + total_nodes bs).
Proof.
  induction bs as [|b bs IH]; intros fuel i pre c F Li Lb Lf.
  - cbn in *. destruct fuel as [|fuel]; [lia|]. cbn. f_equal. unfold total_nodes. cbn. lia.
  - inversion F as [|? ? [F1 F2] F3]; subst. cbn [length] in Lb. cbn [saveFrom] in *.
    assert (U : (if Nat.eqb (length bs) 0 then True else u8 (Z.of_nat (length pre) + 1) = Z.of_nat (length pre + 1))) by (destruct (Nat.eqb_spec (length bs) 0); [trivial|unfold u8; rewrite Z.mod_small by lia; lia]).
    assert (SF : saveFrom (u8 (Z.of_nat (length pre) + 1)) bs = saveFrom (Z.of_nat (length pre + 1)) bs) by (destruct bs; [reflexivity|cbn [length Nat.eqb] in U; now rewrite U]). rewrite SF in *. clear U SF.
    destruct (nodes b) as [|n ns] eqn:En.
    + cbn [app] in *. change (repeat emptyBucket (length (b :: bs))) with (emptyBucket :: repeat emptyBucket (length bs)).
      replace (pre ++ emptyBucket :: repeat emptyBucket (length bs)) with ((pre ++ [emptyBucket]) ++ repeat emptyBucket (length bs)) by now rewrite <- app_assoc.
      rewrite (IH fuel (length pre + 1)%nat (pre ++ [emptyBucket])); [|assumption|rewrite app_length; reflexivity|lia|assumption].
      cbn [map total_nodes fold_right]. unfold reload at 2. rewrite En. cbn [map]. fold (total_nodes bs). rewrite <- app_assoc. f_equal.
    + rewrite <- En in *. destruct fuel as [|fuel]; [lia|]. rewrite !app_length in Lf. cbn [length] in Lf.
      set (tail := saveFrom (Z.of_nat (length pre + 1)) bs) in *.
      assert (E : ((toString (Z.of_nat (length pre)) ++ [10] ++ nodesBegin ++ flat_map entry (nodes b) ++ nodesEnd) ++ tail) ++ bucketsEnd = toString (Z.of_nat (length pre)) ++ 10 :: (nodesBegin ++ flat_map entry (nodes b) ++ nodesEnd ++ tail ++ bucketsEnd)).
      { rewrite <- !app_assoc. reflexivity. }
      rewrite E. cbn [loadLoop]. destruct (Nat.leb_spec (length (toString (Z.of_nat (length pre)) ++ 10 :: nodesBegin ++ flat_map entry (nodes b) ++ nodesEnd ++ tail ++ bucketsEnd)) 11) as [Bad|_];
        [exfalso; rewrite app_length in Bad; cbn [length] in Bad; rewrite !app_length in Bad; cbn [nodesBegin nodesEnd bucketsEnd length] in Bad; lia|].
      rewrite lineOf_ok by (apply toString_no10; lia). rewrite stoi_toString by lia.
      change (firstn 8 (nodesBegin ++ flat_map entry (nodes b) ++ nodesEnd ++ tail ++ bucketsEnd)) with nodesBegin. change (skipn 8 (nodesBegin ++ flat_map entry (nodes b) ++ nodesEnd ++ tail ++ bucketsEnd)) with (flat_map entry (nodes b) ++ nodesEnd ++ tail ++ bucketsEnd).
      rewrite list_eqb_refl. cbn [negb]. rewrite findText_ok by exact F2. destruct (Z.ltb_spec (Z.of_nat (length pre)) 0); [lia|]. destruct (Z.ltb_spec 159 (Z.of_nat (length pre))); [lia|]. cbn [orb].
      rewrite readEntries_ok by (try assumption; lia). unfold bucketAt. rewrite Nat2Z.id. cbn [length repeat]. rewrite app_nth2, Nat.sub_diag by lia. cbn [nth emptyBucket nodes cache blast app].
      replace (length pre) with (length pre + 0)%nat at 1 by lia. rewrite upd_app_r. cbn [upd].
      replace (pre ++ {| nodes := map fresh (nodes b); cache := []; blast := 0 |} :: repeat emptyBucket (length bs)) with ((pre ++ [reload b]) ++ repeat emptyBucket (length bs)) by now rewrite <- app_assoc.
      unfold tail. rewrite (IH fuel (length pre + 1)%nat (pre ++ [reload b])); [|assumption|rewrite app_length; reflexivity|lia|fold tail; lia].
      cbn [map total_nodes fold_right]. fold (total_nodes bs). rewrite <- app_assoc. f_equal. unfold zlen. rewrite map_length. lia.
Qed.
